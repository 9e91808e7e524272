(** Vocabulary of expressions: their text and their value. *)
From Coq Require Import Ascii String.
From stdpp Require Import strings.
From Verif Require Import Base ExModel.
Local Open Scope Z_scope.

Inductive sign := NoSign | Plus | Minus.
(** A number: digits, a fraction or not, an exponent or not (the letter, a sign or not, digits). *)
Record lit := Lit { l_int : list ascii; l_frac : option (list ascii); l_exp : option (ascii * option ascii * list ascii) }.
Inductive expr :=
  | ENum (s : sign) (l : lit)
  | EVar (s : sign) (n : list ascii)
  | EPar (s : sign) (e : expr)
  | ECall (f : list ascii) (a : expr)
  | ECall2 (f : list ascii) (a b : expr)
  | EIf (a b c : expr)
  | EBin (op : ascii) (l r : expr).

Definition showSign (s : sign) : list ascii := match s with NoSign => [] | Plus => ["+"%char] | Minus => ["-"%char] end.
Definition showLit (l : lit) : list ascii :=
  l_int l ++ match l_frac l with Some f => "."%char :: f | None => [] end ++
  match l_exp l with Some (c, Some s, x) => c :: s :: x | Some (c, None, x) => c :: x | None => [] end.
Fixpoint show (e : expr) : list ascii :=
  match e with
  | ENum s l => showSign s ++ showLit l
  | EVar s n => showSign s ++ n
  | EPar s e => showSign s ++ "("%char :: show e ++ [")"%char]
  | ECall f a => f ++ "("%char :: show a ++ [")"%char]
  | ECall2 f a b => f ++ "("%char :: show a ++ ","%char :: show b ++ [")"%char]
  | EIf a b c => s2l "if" ++ "("%char :: show a ++ ","%char :: show b ++ ","%char :: show c ++ [")"%char]
  | EBin op l r => show l ++ op :: show r end.

(** The value of a number: its digits as one integer, and the power of ten. *)
Definition decimal (l : list ascii) : Z := foldl (fun a c => 10 * a + digitOf c) 0 l.
Definition litDec (l : lit) : dec :=
  let f := default [] (l_frac l) in
  Dec (decimal (l_int l ++ f)) (match l_exp l with Some (_, Some "-"%char, x) => - decimal x | Some (_, _, x) => decimal x | None => 0 end - zlen f).
Definition signed {D} (o : ops D) (s : sign) (v : D) : D := match s with Minus => o_un o (s2l "-") v | _ => v end.
(** A sign is applied before any operation; operations of the same level go from left to right. *)
Fixpoint value {D} (o : ops D) (e : expr) : D :=
  match e with
  | ENum s l => signed o s (o_num o (litDec l))
  | EVar s n => signed o s (o_var o n)
  | EPar s e => signed o s (value o e)
  | ECall f a => o_un o f (value o a)
  | ECall2 f a b => o_bin o f (value o a) (value o b)
  | EIf a b c => o_ter o (s2l "if") (value o a) (value o b) (value o c)
  | EBin op l r => o_bin o [op] (value o l) (value o r) end.
Fixpoint literals (e : expr) : list dec :=
  match e with
  | ENum _ l => [litDec l] | EVar _ _ => [] | EPar _ e => literals e | ECall _ a => literals a
  | ECall2 _ a b => literals a ++ literals b | EIf a b c => literals a ++ literals b ++ literals c | EBin _ l r => literals l ++ literals r end.

Definition lvl (op : ascii) : Z := if isIn (s2l "<>") op then 0 else if isIn (s2l "+-") op then 1 else if isIn (s2l "*/") op then 2 else if isIn (s2l "^") op then 3 else 4.
Definition level (e : expr) : Z := match e with EBin op _ _ => lvl op | _ => 4 end.
Definition digits (l : list ascii) : Prop := Forall (fun c => isIn figures c = true) l.
Definition litOk (l : lit) : Prop :=
  digits (l_int l) /\ l_int l <> [] /\ (forall f, l_frac l = Some f -> digits f) /\
  forall c s x, l_exp l = Some (c, s, x) -> (c = "e" \/ c = "E")%char /\ (forall a, s = Some a -> a = "+" \/ a = "-")%char /\ digits x /\ x <> [].
(** A character of a name. *)
Definition okName (c : ascii) : bool := notIn special c && negb (is "," c).
Definition nameOk (n : list ascii) : Prop := Forall (fun c => okName c = true) n /\ exists c r, n = c :: r /\ isIn figures c = false /\ is "." c = false.
(** No function of several arguments; no comparison. *)
Fixpoint nocomma (e : expr) : Prop :=
  match e with ENum _ _ | EVar _ _ => True | EPar _ e => nocomma e | ECall _ a => nocomma a | ECall2 _ _ _ | EIf _ _ _ => False | EBin _ l r => nocomma l /\ nocomma r end.
Fixpoint nocmp (e : expr) : Prop :=
  match e with ENum _ _ | EVar _ _ => True | EPar _ e => nocmp e | ECall _ a => nocmp a | ECall2 _ a b => nocmp a /\ nocmp b | EIf a b c => nocmp a /\ nocmp b /\ nocmp c
  | EBin op l r => lvl op <> 0 /\ nocmp l /\ nocmp r end.
(** The expressions that are understood: between brackets no function of several arguments; a comparison is the whole text, a whole argument or all that is between brackets,
    and then these brackets or this function are not an operand; operands of higher level than the operator, or of its level on its left. *)
Fixpoint wf (e : expr) : Prop :=
  match e with
  | ENum _ l => litOk l
  | EVar _ n => nameOk n
  | EPar _ e => wf e /\ nocomma e
  | ECall f a => f ∈ unaryNames /\ f <> s2l "-" /\ wf a /\ nocomma a
  | ECall2 f a b => (f = s2l "max" \/ f = s2l "min") /\ wf a /\ nocomma a /\ wf b /\ nocomma b
  | EIf a b c => wf a /\ nocomma a /\ wf b /\ nocomma b /\ wf c /\ nocomma c
  | EBin op l r => wf l /\ wf r /\ lvl op < 4 /\ lvl op <= level l /\ lvl op < level r /\ nocmp r /\ (nocmp l \/ (lvl op = 0 /\ level l = 0)) end.
(** Brackets that match: none is closed before it is opened, all are closed. *)
Definition count (c : ascii) (l : list ascii) : Z := zlen (filter (fun x => x = c) l).
Definition balanced (l : list ascii) : Prop := (forall p, p `prefix_of` l -> count ")" p <= count "(" p) /\ count ")" l = count "(" l.
(** A text without its spaces and ends of line. *)
Definition noSpaces (l : list ascii) : list ascii := filter (fun c => c <> " "%char /\ c <> "010"%char) l.
