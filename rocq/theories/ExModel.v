(** Expressions of applyFunc: src/INTERP_KERNEL/ExprEval/InterpKernelExprParser.cxx, InterpKernelFunction.cxx.
    A string is a list of characters.  std::out_of_range, thrown by substr, is Throw as INTERP_KERNEL::Exception is. *)
From Coq Require Import Ascii String.
From stdpp Require Import strings.
From Verif Require Import Base.
Local Open Scope Z_scope.

Definition s2l (s : string) : list ascii := list_ascii_of_string s.
Definition isIn (l : list ascii) (c : ascii) : bool := existsb (Ascii.eqb c) l.
Definition notIn (l : list ascii) (c : ascii) : bool := negb (isIn l c).
Definition is (a : ascii) (c : ascii) : bool := Ascii.eqb c a.
Definition figures := s2l "0123456789".
Definition signs := s2l "+-".
Definition operators := s2l "+-*/^><".
Definition special := s2l "+-*/^()<>".
(** Line 1021: the characters after which a number may begin. *)
Definition beforeNumber := s2l "+-*^/(<>,".

(** std::string::npos, find_first_of, find_first_not_of, substr, operator[]. *)
Definition npos : Z := 18446744073709551615.
Fixpoint firstOf (p : ascii -> bool) (l : list ascii) : option Z :=
  match l with [] => None | c :: l => if p c then Some 0 else (fun k => k + 1) <$> firstOf p l end.
Definition findFirst (p : ascii -> bool) (l : list ascii) (from : Z) : Z :=
  if zlen l <=? from then npos else match firstOf p (drop (Z.to_nat from) l) with Some k => from + k | None => npos end.
Definition substr (l : list ascii) (pos len : Z) : res (list ascii) :=
  throw_if zlen l <? pos >>> Ok (take (Z.to_nat (Z.min len (zlen l - pos))) (drop (Z.to_nat (Z.min pos (zlen l))) l)).
Definition charAt (l : list ascii) (i : Z) : ascii := default zero (l @ i).

(** A number as read in the text: mantissa times a power of ten. *)
Inductive dec := Dec (m e : Z).
Definition digitOf (c : ascii) : Z := Z.of_N (N_of_ascii c) - 48.
Definition digitsValue (l : list ascii) : Z := foldl (fun a c => 10 * a + digitOf c) 0 l.
Fixpoint takeDigits (l : list ascii) : list ascii * list ascii :=
  match l with [] => ([], []) | c :: r => if isIn figures c then (c :: (takeDigits r).1, (takeDigits r).2) else ([], l) end.
(** operator>> of a stream on a text without sign: the number and what is left, None when it fails. *)
Definition readExponent (m : list ascii) (f : Z) (l : list ascii) : option (dec * list ascii) :=
  match l with
  | c :: r => if is "e" c || is "E" c then
      let '(neg, r) := match r with s :: r' => if is "-" s then (true, r') else if is "+" s then (false, r') else (false, r) | [] => (false, r) end in
      let '(x, r) := takeDigits r in
      if bool_decide (x = []) then None else Some (Dec (digitsValue m) ((if neg then - digitsValue x else digitsValue x) - f), r)
    else Some (Dec (digitsValue m) (- f), l)
  | [] => Some (Dec (digitsValue m) (- f), l) end.
Definition readDouble (l : list ascii) : option (dec * list ascii) :=
  let '(ip, r) := takeDigits l in
  let '(fp, r) := match r with c :: r' => if is "." c then takeDigits r' else ([], r) | [] => ([], r) end in
  if bool_decide (ip ++ fp = []) then None else readExponent (ip ++ fp) (zlen fp) r.

(** The text of an int. *)
Definition digitChar (d : Z) : ascii := ascii_of_N (Z.to_N (d + 48)).
Fixpoint textOf (fuel : nat) (n : Z) : list ascii :=
  match fuel with O => [] | S f => if n <? 10 then [digitChar n] else textOf f (n / 10) ++ [digitChar (n mod 10)] end.

(** Lines 991-1011, ReplaceAndTraduce. *)
Definition replaceAndTraduce (expr : list ascii) (id bg en : Z) : res (list ascii * Z * dec) :=
  let* tmp := substr expr bg (if en =? npos then en else en - bg) in
  match readDouble tmp with
  | Some (d, []) =>
    let t := textOf 20 id in
    Ok (take (Z.to_nat bg) expr ++ t ++ drop (Z.to_nat (bg + zlen tmp)) expr, zlen t - zlen tmp, d)
  | _ => Throw end.
(** Lines 1018-1109, fillValuesInExpr: [lgth] is the length of the text at the beginning. *)
Fixpoint fillLoop (fuel : nat) (lgth : Z) (expr : list ascii) (pos id : Z) (vals : list dec) : res (list ascii * list dec) :=
  match fuel with O => Fuel | S f =>
    if pos =? npos then Ok (expr, vals) else
    let pos2 := findFirst (isIn figures) expr pos in
    if pos2 =? npos then Ok (expr, vals) else
    if (0 <? pos2) && notIn beforeNumber (charAt expr (pos2 - 1)) then fillLoop f lgth expr (findFirst (notIn figures) expr pos2) id vals else
    throw_if (0 <? pos2) && is ")" (charAt expr (pos2 - 1)) >>>
    let last := let* r := replaceAndTraduce expr id pos2 npos in Ok (r.1.1, vals ++ [r.2]) in
    let go p5 := let* r := replaceAndTraduce expr id pos2 p5 in fillLoop f lgth r.1.1 ((p5 + r.1.2) mod (npos + 1)) (id + 1) (vals ++ [r.2]) in
    let pos3 := findFirst (notIn figures) expr pos2 in
    if pos3 =? npos then last else
    let pos3 := if is "." (charAt expr pos3) then pos3 + 1 else pos3 in
    if pos3 <? lgth then
      let pos4 := findFirst (notIn figures) expr pos3 in
      if pos4 =? npos then last else
      if negb (is "e" (charAt expr pos4) || is "E" (charAt expr pos4)) then go pos4 else
      let pos4 := pos4 + 1 in
      if pos4 <? lgth then
        let pos4 := if isIn signs (charAt expr pos4) then pos4 + 1 else pos4 in
        throw_if lgth <=? pos4 >>>
        let pos5 := findFirst (notIn figures) expr pos4 in
        throw_if pos4 =? pos5 >>> go pos5
      else Throw
    else last
  end.
Definition fillValuesInExpr (expr : list ascii) : res (list ascii * list dec) := fillLoop (Datatypes.length expr + 2) (zlen expr) expr 0 0 [].

(** Lines 959-985, checkBracketsParity. *)
Fixpoint checkBrackets (level : Z) (l : list ascii) : res unit :=
  match l with
  | [] => throw_if negb (level =? 0) >>> Ok tt
  | c :: r => if is "(" c then checkBrackets (level + 1) r else if is ")" c then throw_if level =? 0 >>> checkBrackets (level - 1) r else checkBrackets level r end.

(** InterpKernelFunction.cxx 86-192: the functions.  IdentityFunction and PositiveFunction leave the stack as it is. *)
Inductive fn := FId | FUn (name : list ascii) | FBin (name : list ascii) | FTer (name : list ascii).
Definition unaryNames := s2l <$> ["cos"; "sin"; "tan"; "acos"; "asin"; "atan"; "cosh"; "sinh"; "tanh"; "sqrt"; "abs"; "-"; "exp"; "ln"; "log"; "log10"]%string.
Definition binaryNames := s2l <$> ["+"; "-"; "*"; "/"; "^"; "max"; "min"; ">"; "<"]%string.
Definition buildFunc (name : list ascii) (nb : Z) : res fn :=
  if nb =? 1 then if bool_decide (name = [] \/ name = s2l "+") then Ok FId else if bool_decide (name ∈ unaryNames) then Ok (FUn name) else Throw
  else if nb =? 2 then if bool_decide (name ∈ binaryNames) then Ok (FBin name) else Throw
  else if nb =? 3 then if bool_decide (name = s2l "if") then Ok (FTer name) else Throw
  else Throw.

(** Lines 43-64, LeafExpr::buildInstanceFrom. *)
Inductive leaf := LVal (d : dec) | LVar (name : list ascii).
Definition buildLeaf (e : list ascii) : res leaf :=
  match readDouble e with Some (d, []) => Ok (LVal d) | Some _ => Throw | None => Ok (LVar e) end.
(** Lines 651-670, tryToInterpALeaf: the leaf and whether it has an odd number of minus signs. *)
Definition tryLeaf (e : list ascii) : res (option (leaf * bool)) :=
  let pos := findFirst (notIn signs) e 0 in
  let* m := substr e pos npos in
  if existsb (isIn special) m then Ok None else
  let* l := buildLeaf m in
  Ok (Some (l, Z.odd (zlen (filter (fun c => is "-" c = true) (take (Z.to_nat pos) e))))).

(** Lines 241-260, FindCorrespondingOpenBracket: [l] is the text before the closing bracket, reversed. *)
Fixpoint findOpen (level : Z) (l : list ascii) : Z :=
  match l with
  | [] => npos
  | c :: r => if is ")" c then findOpen (level + 1) r else if is "(" c then if level =? 0 then zlen r else findOpen (level - 1) r else findOpen level r end.
Fixpoint splitCommas (l : list ascii) : list (list ascii) :=
  match l with
  | [] => [[]]
  | c :: r => if is "," c then [] :: splitCommas r else match splitCommas r with x :: t => (c :: x) :: t | [] => [[c]] end end.
Fixpoint buildAll (names : list (list ascii)) (nb : Z) : res (list fn) :=
  match names with [] => Ok [] | n :: r => let* f := buildFunc n nb in let* fs := buildAll r nb in Ok (f :: fs) end.
(** Lines 597-643, parseUnaryFunc; the parts between commas, 632-641, are [splitCommas]. *)
Definition parseUnary (e : list ascii) : res (option (list (list ascii) * list fn)) :=
  if negb (is ")" (charAt e (zlen e - 1))) then Ok None else
  let pos1 := findFirst (is "(") e 0 in
  let pos4 := findOpen 0 (rev (take (Datatypes.length e - 1) e)) in
  if negb (pos4 =? pos1) then Ok None else
  let* funcName := substr e 0 pos1 in
  if existsb (isIn operators) funcName && existsb (notIn operators) funcName then Ok None else
  let* newExp2 := substr e ((pos1 + 1) mod (npos + 1)) ((zlen e - pos1 - 2) mod (npos + 1)) in
  let nb := zlen (filter (fun c => is "," c = true) newExp2) + 1 in
  let* fs := if existsb (notIn operators) funcName then buildAll [funcName] nb else buildAll ((fun c => [c]) <$> funcName) nb in
  Ok (Some (splitCommas newExp2, fs)).

(** What is done of an operator: it goes on with the current part, it separates two parts, it is refused. *)
Inductive action := Append | Split | Refuse.
Record scan := Scan { sc_level : Z; sc_cur : list ascii; sc_subs : list (list ascii); sc_fs : list fn; sc_ok : bool }.
(** The loop of parseForCmp, parseForAddMin, parseForMulDiv and parseForPow. *)
Fixpoint scanLoop (ops : ascii -> bool) (byLevel : bool) (act : list ascii -> action) (l : list ascii) (s : scan) : res scan :=
  match l with
  | [] => Ok s
  | c :: r =>
    let more lev := scanLoop ops byLevel act r (Scan lev (sc_cur s ++ [c]) (sc_subs s) (sc_fs s) (sc_ok s)) in
    if ops c then
      if byLevel && negb (sc_level s =? 0) then more (sc_level s) else
      match act (sc_cur s) with
      | Append => more (sc_level s)
      | Split => let* f := buildFunc [c] 2 in scanLoop ops byLevel act r (Scan (sc_level s) [] (sc_subs s ++ [sc_cur s]) (sc_fs s ++ [f]) true)
      | Refuse => Throw end
    else if is "(" c then more (sc_level s + 1) else if is ")" c then more (sc_level s - 1) else more (sc_level s) end.
Definition parseFor (ops : ascii -> bool) (byLevel : bool) (act : list ascii -> action) (e : list ascii) : res (option (list (list ascii) * list fn)) :=
  let* s := scanLoop ops byLevel act e (Scan 0 [] [] [] false) in
  if sc_ok s then throw_if bool_decide (sc_cur s = []) >>> Ok (Some (sc_subs s ++ [sc_cur s], sc_fs s)) else Ok None.
Definition notFirst (cur : list ascii) : action := if bool_decide (cur = []) then Refuse else Split.
(** Lines 672-729: the level of brackets is not looked at. *)
Definition parseForCmp := parseFor (isIn (s2l "><")) false notFirst.
(** Lines 731-792. *)
Definition notAfterOperator (cur : list ascii) : action :=
  match last cur with None => Append | Some c => if isIn (s2l "*/^") c then Append else Split end.
Definition parseForAddMin := parseFor (isIn signs) true notAfterOperator.
(** Lines 794-853. *)
Definition parseForMulDiv := parseFor (isIn (s2l "/*")) true notFirst.
(** Lines 855-913. *)
Definition parseForPow := parseFor (is "^") true notFirst.

(** Lines 929-957, simplify. *)
Inductive step := SLeaf (l : leaf) (neg : bool) | SSub (subs : list (list ascii)) (fs : list fn).
Definition simplify (e : list ascii) : res step :=
  let* lf := tryLeaf e in
  match lf with Some (l, neg) => Ok (SLeaf l neg) | None =>
  let* r := parseUnary e in match r with Some (s, f) => Ok (SSub s f) | None =>
  let* r := parseForCmp e in match r with Some (s, f) => Ok (SSub s f) | None =>
  let* r := parseForAddMin e in match r with Some (s, f) => Ok (SSub s f) | None =>
  let* r := parseForMulDiv e in match r with Some (s, f) => Ok (SSub s f) | None =>
  let* r := parseForPow e in match r with Some (s, f) => Ok (SSub s f) | None => Throw end end end end end end.
(** The object: a leaf, with the function "-" or not, or sub expressions, in the order of the text (reverseThis, 517-528, puts the first at the
    end of the vector, which is the top of the stack), and functions. *)
Inductive node := Leaf (l : leaf) (neg : bool) | Sub (subs : list node) (fs : list fn).
Fixpoint allM {A B} (f : A -> res B) (l : list A) : res (list B) :=
  match l with [] => Ok [] | x :: r => let* y := f x in let* t := allM f r in Ok (y :: t) end.
(** Lines 584-590, parseDeeper. *)
Fixpoint parseDeep (fuel : nat) (e : list ascii) : res node :=
  match fuel with O => Fuel | S f =>
    let* s := simplify e in
    match s with SLeaf l neg => Ok (Leaf l neg) | SSub subs fs => let* ns := allM (parseDeep f) subs in Ok (Sub ns fs) end end.
(** Lines 1111-1121 and 76-85, replaceValues: the number of a leaf is the place of its value. *)
Definition toInt (d : dec) : res Z :=
  let 'Dec m e := d in let v := if 0 <=? e then m * 10 ^ e else m / 10 ^ (- e) in ub_if 2147483648 <=? v >>> Ok v.
Definition replaceLeaf (vals : list dec) (l : leaf) : res leaf :=
  match l with
  | LVal d => let* p := toInt d in throw_if (zlen vals <=? p) || (p <? 0) >>> let* v := rd vals p in Ok (LVal v)
  | LVar n => Ok (LVar n) end.
Fixpoint replaceValues (vals : list dec) (n : node) : res node :=
  match n with
  | Leaf l neg => let* l := replaceLeaf vals l in Ok (Leaf l neg)
  | Sub subs fs => let* subs := (fix go (l : list node) := match l with [] => Ok [] | x :: r => let* y := replaceValues vals x in let* t := go r in Ok (y :: t) end) subs in Ok (Sub subs fs) end.
(** Lines 283-305, deleteWhiteSpaces: the loop removes the runs of white spaces one after the other. *)
Definition deleteWhiteSpaces (e : list ascii) : list ascii := filter (fun c => notIn (s2l " ") c && negb (is "010" c) = true) e.
(** Lines 307-326, parse; an empty expression is refused when it is evaluated, 418-424. *)
Definition parse (e : list ascii) : res node :=
  let e := deleteWhiteSpaces e in
  throw_if bool_decide (e = []) >>>
  let* (e, vals) := fillValuesInExpr e in
  let* _ := checkBrackets 0 e in
  let* n := parseDeep (Datatypes.length e) e in
  replaceValues vals n.

(** The operations of the values, whatever they are (double, unit, several components): they do not throw in the model. *)
Record ops (D : Type) := Ops { o_num : dec -> D; o_var : list ascii -> D; o_un : list ascii -> D -> D; o_bin : list ascii -> D -> D -> D; o_ter : list ascii -> D -> D -> D -> D }.
Arguments o_num {D}. Arguments o_var {D}. Arguments o_un {D}. Arguments o_bin {D}. Arguments o_ter {D}.
(** InterpKernelFunction.cxx, operate: the top of the stack is the head of the list. *)
Definition operate {D} (o : ops D) (f : fn) (st : list D) : res (list D) :=
  match f with
  | FId => Ok st
  | FUn n => match st with a :: r => Ok (o_un o n a :: r) | _ => UB end
  | FBin n => match st with a :: b :: r => Ok (o_bin o n a b :: r) | _ => UB end
  | FTer n => match st with a :: b :: c :: r => Ok (o_ter o n a b c :: r) | _ => UB end end.
Definition operateAll {D} (o : ops D) (fs : list fn) (st : list D) : res (list D) := foldM (fun st f => operate o f st) fs st.
Definition leafValue {D} (o : ops D) (l : leaf) : D := match l with LVal d => o_num o d | LVar n => o_var o n end.
Definition negation (neg : bool) : list fn := if neg then [FUn (s2l "-")] else [].
(** Lines 457-503, evaluateLowLev: each sub expression has its own stack. *)
Fixpoint evalNode {D} (o : ops D) (n : node) : res D :=
  let* st := match n with
    | Leaf l neg => operateAll o (negation neg) [leafValue o l]
    | Sub subs fs => let* vs := (fix go (l : list node) := match l with [] => Ok [] | x :: r => let* y := evalNode o x in let* t := go r in Ok (y :: t) end) subs in operateAll o fs vs end in
  match st with a :: _ => Ok a | [] => UB end.
(** InterpKernelExprParser.hxx 117-127, evaluateDoubleInternal: one stack; the last sub expression of the text is evaluated first. *)
Fixpoint evalStack {D} (o : ops D) (n : node) (st : list D) : res (list D) :=
  match n with
  | Leaf l neg => operateAll o (negation neg) (leafValue o l :: st)
  | Sub subs fs => let* st := (fix go (l : list node) := match l with [] => Ok st | x :: r => let* st := go r in evalStack o x st end) subs in operateAll o fs st end.
Definition evaluate {D} (o : ops D) (text : string) : res D := let* n := parse (s2l text) in evalNode o n.
Definition evaluateFast {D} (o : ops D) (text : string) : res D :=
  let* n := parse (s2l text) in let* st := evalStack o n [] in match st with a :: _ => Ok a | [] => UB end.
