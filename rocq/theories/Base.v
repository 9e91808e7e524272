(** Framework: outcomes of a C++ call, buffers, loops, and a small program logic over them.

    Nothing here models a particular function of /repo: it fixes how the C++ text is read (see DESIGN.md, section 1). *)
From stdpp Require Export sets list list_numbers numbers sorting.
From Coq Require Export ZArith Lia Bool.
From Coq Require Import ZifyBool ZifyNat.
Global Open Scope Z_scope.

(** * Outcomes *)

(** Normal return, C++ exception, undefined behaviour, loop not finished within its fuel. *)
Inductive res (A : Type) : Type :=
| Ok (a : A)
| Throw
| UB
| Fuel.
Arguments Ok {A} _.
Arguments Throw {A}.
Arguments UB {A}.
Arguments Fuel {A}.

Definition bind {A B} (m : res A) (f : A -> res B) : res B :=
  match m with Ok a => f a | Throw => Throw | UB => UB | Fuel => Fuel end.
Notation "'let*' x ':=' m 'in' k" := (bind m (fun x => k))
  (at level 200, x pattern, m at level 100, k at level 200, right associativity).
(** [ifthrow c k]: the C++ statement [if (c) throw ...;] followed by [k]. *)
Definition ifthrow {A} (c : bool) (k : res A) : res A := if c then Throw else k.
Notation "'throw_if' c '>>>' k" := (ifthrow c k) (at level 200, c at level 100, k at level 200, right associativity).
(** [ubif c k]: the operation that follows is undefined when [c]. *)
Definition ubif {A} (c : bool) (k : res A) : res A := if c then UB else k.
Notation "'ub_if' c '>>>' k" := (ubif c k) (at level 200, c at level 100, k at level 200, right associativity).

(** * Buffers: lists addressed with signed indices *)

Definition zlen {A} (l : list A) : Z := Z.of_nat (length l).
Definition zlook {A} (l : list A) (i : Z) : option A := if i <? 0 then None else l !! Z.to_nat i.
Notation "l @ i" := (zlook l i) (at level 19, left associativity).
Definition zset {A} (l : list A) (i : Z) (x : A) : list A := <[Z.to_nat i := x]> l.

(** [p[i]] read as an rvalue; [p[i] = x]. *)
Definition rd {A} (l : list A) (i : Z) : res A := match l @ i with Some x => Ok x | None => UB end.
Definition wr {A} (l : list A) (i : Z) (x : A) : res (list A) :=
  if (0 <=? i) && (i <? zlen l) then Ok (zset l i x) else UB.
(** Cells of a malloc'ed buffer: [None] is an indeterminate value, whose read is undefined. *)
Definition malloc (A : Type) (n : Z) : list (option A) := replicate (Z.to_nat n) None.
Definition rdc {A} (l : list (option A)) (i : Z) : res A :=
  match l @ i with Some (Some x) => Ok x | _ => UB end.
Definition wrc {A} (l : list (option A)) (i : Z) (x : A) : res (list (option A)) := wr l i (Some x).

(** * Loops *)

Fixpoint foldM {A S} (f : S -> A -> res S) (l : list A) (s : S) : res S :=
  match l with [] => Ok s | x :: l' => let* s' := f s x in foldM f l' s' end.
(** [for (i = lo; i < hi; i++) body]. *)
Definition forZ {S} (lo hi : Z) (body : Z -> S -> res S) (s : S) : res S :=
  foldM (fun s i => body i s) (seqZ lo (hi - lo)) s.
(** [while (cond) body] with fuel. *)
Fixpoint whileM {S} (fuel : nat) (cond : S -> res bool) (body : S -> res S) (s : S) : res S :=
  match fuel with
  | O => Fuel
  | S f => let* c := cond s in if c : bool then let* s' := body s in whileM f cond body s' else Ok s
  end.

(** [std::copy(src+a, src+b, dst+d)] from an initialised buffer to a malloc'ed one (disjoint buffers).  A range with
    [b < a] is undefined. *)
Definition copyc {A} (src : list A) (a b : Z) (dst : list (option A)) (d : Z) : res (list (option A)) :=
  ub_if b <? a >>> forZ 0 (b - a) (fun k dst => let* x := rd src (a + k) in wrc dst (d + k) x) dst.

(** * Program logic *)

(** [wp r Q T]: [r] returns normally with a value satisfying [Q], or throws and [T] holds; no undefined behaviour and
    no lack of fuel. *)
Definition wp {A} (r : res A) (Q : A -> Prop) (T : Prop) : Prop :=
  match r with Ok a => Q a | Throw => T | UB => False | Fuel => False end.

Lemma wp_ok {A} (r : res A) (Q : A -> Prop) : wp r Q False -> exists a, r = Ok a /\ Q a.
Proof. destruct r; simpl; try tauto. eauto. Qed.

Lemma wp_ok_eq {A} (r : res A) (a : A) : wp r (fun x => x = a) False -> r = Ok a.
Proof. destruct r; simpl; try tauto. intros ->; done. Qed.

Lemma wp_throw {A} (r : res A) (Q : A -> Prop) (T : Prop) :
  wp r Q T -> (forall a, Q a -> False) -> r = Throw.
Proof. destruct r; simpl; intros H HQ; try tauto. exfalso; eauto. Qed.

Lemma wp_mono {A} (r : res A) (Q Q' : A -> Prop) (T T' : Prop) :
  wp r Q T -> (forall a, Q a -> Q' a) -> (T -> T') -> wp r Q' T'.
Proof. destruct r; simpl; auto. Qed.

Lemma wp_bind {A B} (m : res A) (f : A -> res B) Q (T : Prop) :
  wp m (fun a => wp (f a) Q T) T -> wp (bind m f) Q T.
Proof. destruct m; simpl; auto. Qed.

Lemma wp_bind' {A B} (m : res A) (f : A -> res B) P Q (T : Prop) :
  wp m P T -> (forall a, P a -> wp (f a) Q T) -> wp (bind m f) Q T.
Proof. destruct m; simpl; auto. Qed.

Lemma wp_ifthrow {A} (c : bool) (k : res A) Q (T : Prop) :
  (c = true -> T) -> (c = false -> wp k Q T) -> wp (ifthrow c k) Q T.
Proof. destruct c; simpl; auto. Qed.

Lemma wp_ubif {A} (c : bool) (k : res A) Q (T : Prop) :
  c = false -> wp k Q T -> wp (ubif c k) Q T.
Proof. intros ->; auto. Qed.

Lemma wp_foldM {A S} (f : S -> A -> res S) (I : list A -> S -> Prop) (l : list A) (s : S) (Q : S -> Prop) (T : Prop) :
  I [] s ->
  (forall pre x post s, l = pre ++ x :: post -> I pre s -> wp (f s x) (I (pre ++ [x])) T) ->
  (forall s, I l s -> Q s) ->
  wp (foldM f l s) Q T.
Proof.
  intros H0 Hstep Hend.
  assert (Hgen : forall post pre s, l = pre ++ post -> I pre s -> wp (foldM f post s) (I l) T).
  { induction post as [|x post IH]; intros pre s' Hl HI; simpl.
    - rewrite app_nil_r in Hl; subst; done.
    - eapply wp_bind'; [eapply Hstep; eauto|]. intros s'' HI'. apply (IH (pre ++ [x])); auto.
      rewrite <- app_assoc; done. }
  eapply wp_mono; [apply (Hgen l []); done| |]; auto.
Qed.

Lemma seqZ_app_r lo n : 0 <= n -> seqZ lo (n + 1) = seqZ lo n ++ [lo + n].
Proof.
  intros Hn. rewrite seqZ_app by lia. f_equal.
Qed.

Lemma wp_forZ {S} (I : Z -> S -> Prop) (lo hi : Z) (body : Z -> S -> res S) (s : S) (Q : S -> Prop) (T : Prop) :
  lo <= hi ->
  I lo s ->
  (forall i s, lo <= i < hi -> I i s -> wp (body i s) (I (i + 1)) T) ->
  (forall s, I hi s -> Q s) ->
  wp (forZ lo hi body s) Q T.
Proof.
  intros Hle H0 Hstep Hend. unfold forZ.
  assert (Hgen : forall n i s, Z.of_nat n = hi - i -> lo <= i -> I i s ->
     wp (foldM (fun s i => body i s) (seqZ i (hi - i)) s) (I hi) T).
  { induction n as [|n IH]; intros i s' Hn Hi HI.
    - replace (hi - i) with 0 by lia. simpl. replace hi with i by lia. done.
    - rewrite seqZ_cons by lia. simpl. eapply wp_bind'; [apply Hstep; [lia|done]|].
      intros s'' HI'. replace (Z.succ i) with (i + 1) by lia. replace (Z.pred (hi - i)) with (hi - (i + 1)) by lia.
      apply IH; try lia; done. }
  eapply wp_mono; [apply (Hgen (Z.to_nat (hi - lo)) lo); try lia; done| |]; auto.
Qed.

(** Rule for [while]: invariant and decreasing measure. *)
Lemma wp_whileM {S} (I : S -> Prop) (meas : S -> nat) (fuel : nat) (cond : S -> res bool) (body : S -> res S) (s : S) (Q : S -> Prop) (T : Prop) :
  I s -> (meas s < fuel)%nat ->
  (forall s, I s -> wp (cond s) (fun b => if b : bool then wp (body s) (fun s' => I s' /\ (meas s' < meas s)%nat) T else Q s) T) ->
  wp (whileM fuel cond body s) Q T.
Proof.
  revert s; induction fuel as [|fuel IH]; intros s HI Hm Hstep; [lia|]. simpl.
  apply wp_bind. eapply wp_mono; [apply Hstep, HI| |done]. simpl. intros [|] Hb; [|done].
  apply wp_bind. eapply wp_mono; [apply Hb| |done]. simpl. intros s' [HI' Hm']. apply IH; [done|lia|done].
Qed.

(** When [hi <= lo] the loop body is not executed. *)
Lemma forZ_empty {S} (lo hi : Z) (body : Z -> S -> res S) (s : S) : hi <= lo -> forZ lo hi body s = Ok s.
Proof. intros H. unfold forZ. rewrite seqZ_nil by lia. done. Qed.

Lemma forZ_step {S} (lo hi : Z) (body : Z -> S -> res S) (s : S) :
  lo < hi -> forZ lo hi body s = (let* s' := body lo s in forZ (lo + 1) hi body s').
Proof.
  intros H. unfold forZ. rewrite seqZ_cons by lia. simpl.
  replace (Z.succ lo) with (lo + 1) by lia. replace (Z.pred (hi - lo)) with (hi - (lo + 1)) by lia. done.
Qed.

Lemma foldM_app {A S} (f : S -> A -> res S) (l1 l2 : list A) (s : S) :
  foldM f (l1 ++ l2) s = (let* s' := foldM f l1 s in foldM f l2 s').
Proof.
  revert s; induction l1 as [|x l1 IH]; intros s; simpl; [done|].
  destruct (f s x); simpl; auto.
Qed.

Lemma foldM_ext {A S} (f g : S -> A -> res S) (l : list A) (s : S) :
  (forall s x, x ∈ l -> f s x = g s x) -> foldM f l s = foldM g l s.
Proof.
  revert s; induction l as [|x l IH]; intros s H; simpl; [done|].
  rewrite H by set_solver. destruct (g s x); simpl; auto. apply IH. intros; apply H; set_solver.
Qed.

(** * Lemmas on signed lookup *)

Lemma zlen_nonneg {A} (l : list A) : 0 <= zlen l.
Proof. unfold zlen; lia. Qed.
Lemma zlen_nil {A} : zlen (@nil A) = 0.
Proof. done. Qed.
Lemma zlen_cons {A} (x : A) l : zlen (x :: l) = 1 + zlen l.
Proof. unfold zlen; simpl; lia. Qed.
Lemma zlen_app {A} (l k : list A) : zlen (l ++ k) = zlen l + zlen k.
Proof. unfold zlen; rewrite app_length; lia. Qed.
Lemma zlen_map {A B} (f : A -> B) l : zlen (map f l) = zlen l.
Proof. unfold zlen; rewrite map_length; done. Qed.
Lemma zlen_fmap {A B} (f : A -> B) (l : list A) : zlen (f <$> l) = zlen l.
Proof. unfold zlen; rewrite fmap_length; done. Qed.
Lemma zlen_zset {A} (l : list A) i x : zlen (zset l i x) = zlen l.
Proof. unfold zlen, zset; rewrite insert_length; done. Qed.
Lemma zlen_replicate {A} n (x : A) : zlen (replicate n x) = Z.of_nat n.
Proof. unfold zlen; rewrite replicate_length; done. Qed.
Lemma zlen_malloc A n : zlen (malloc A n) = Z.max 0 n.
Proof. unfold malloc; rewrite zlen_replicate; lia. Qed.
Lemma zlen_seqZ lo n : zlen (seqZ lo n) = Z.max 0 n.
Proof. unfold zlen; rewrite seqZ_length; lia. Qed.
Lemma zlen_take {A} n (l : list A) : zlen (take n l) = Z.min (Z.of_nat n) (zlen l).
Proof. unfold zlen; rewrite take_length; lia. Qed.
Lemma zlen_drop {A} n (l : list A) : zlen (drop n l) = Z.max 0 (zlen l - Z.of_nat n).
Proof. unfold zlen; rewrite drop_length; lia. Qed.
Lemma zlen_rev {A} (l : list A) : zlen (rev l) = zlen l.
Proof. unfold zlen; rewrite rev_length; done. Qed.
Lemma zlen_reverse {A} (l : list A) : zlen (reverse l) = zlen l.
Proof. unfold zlen; rewrite reverse_length; done. Qed.

Lemma zlook_nat {A} (l : list A) (n : nat) : l @ (Z.of_nat n) = l !! n.
Proof. unfold zlook. destruct (Z.ltb_spec (Z.of_nat n) 0); [lia|]. rewrite Nat2Z.id; done. Qed.
Lemma zlook_to_nat {A} (l : list A) i : 0 <= i -> l @ i = l !! Z.to_nat i.
Proof. intros H. unfold zlook. destruct (Z.ltb_spec i 0); [lia|]. done. Qed.
Lemma zlook_neg {A} (l : list A) i : i < 0 -> l @ i = None.
Proof. intros H. unfold zlook. destruct (Z.ltb_spec i 0); [done|lia]. Qed.

Lemma zlook_Some_lt {A} (l : list A) i x : l @ i = Some x -> 0 <= i < zlen l.
Proof.
  unfold zlook, zlen. destruct (Z.ltb_spec i 0); [done|]. intros Hl. apply lookup_lt_Some in Hl. lia.
Qed.
Lemma zlook_lt {A} (l : list A) i : 0 <= i < zlen l -> exists x, l @ i = Some x.
Proof.
  intros H. rewrite zlook_to_nat by lia. apply lookup_lt_is_Some_2. unfold zlen in H. lia.
Qed.
Lemma zlook_None {A} (l : list A) i : l @ i = None <-> i < 0 \/ zlen l <= i.
Proof.
  split.
  - intros H. destruct (decide (0 <= i < zlen l)) as [Hi|Hi]; [|lia].
    destruct (zlook_lt _ _ Hi) as [x Hx]. congruence.
  - intros H. destruct (l @ i) eqn:E; [|done]. apply zlook_Some_lt in E. lia.
Qed.
Lemma zlook_ge {A} (l : list A) i : zlen l <= i -> l @ i = None.
Proof. intros; apply zlook_None; auto. Qed.
Lemma zlook_nil {A} i : (@nil A) @ i = None.
Proof. unfold zlook. destruct (i <? 0); done. Qed.
Lemma zlook_cons {A} (x : A) l i : (x :: l) @ i = if i =? 0 then Some x else l @ (i - 1).
Proof.
  destruct (Z.eqb_spec i 0) as [->|Hne]; [done|].
  destruct (decide (i < 0)) as [Hn|Hn].
  - rewrite !zlook_neg by lia. done.
  - rewrite !zlook_to_nat by lia. replace (Z.to_nat i) with (S (Z.to_nat (i - 1))) by lia. done.
Qed.
Lemma zlook_app {A} (l k : list A) i : (l ++ k) @ i = if i <? zlen l then l @ i else k @ (i - zlen l).
Proof.
  unfold zlen. destruct (Z.ltb_spec i (Z.of_nat (length l))).
  - destruct (decide (i < 0)); [rewrite !zlook_neg by lia; done|].
    rewrite !zlook_to_nat by lia. apply lookup_app_l. lia.
  - rewrite !zlook_to_nat by lia. rewrite lookup_app_r by lia. f_equal. lia.
Qed.
Lemma zlook_app_l {A} (l k : list A) i : i < zlen l -> (l ++ k) @ i = l @ i.
Proof. intros H. rewrite zlook_app. destruct (Z.ltb_spec i (zlen l)); [done|lia]. Qed.
Lemma zlook_app_r {A} (l k : list A) i : zlen l <= i -> (l ++ k) @ i = k @ (i - zlen l).
Proof. intros H. rewrite zlook_app. destruct (Z.ltb_spec i (zlen l)); [lia|done]. Qed.
Lemma zlook_snoc {A} (l : list A) x : (l ++ [x]) @ (zlen l) = Some x.
Proof. rewrite zlook_app_r by lia. rewrite Z.sub_diag. done. Qed.
Lemma zlook_fmap {A B} (f : A -> B) (l : list A) i : (f <$> l) @ i = f <$> (l @ i).
Proof.
  unfold zlook. destruct (i <? 0); [done|]. apply list_lookup_fmap.
Qed.
Lemma zlook_map {A B} (f : A -> B) (l : list A) i : (map f l) @ i = f <$> (l @ i).
Proof. apply zlook_fmap. Qed.
Lemma zlook_zset {A} (l : list A) i x k :
  0 <= i < zlen l -> (zset l i x) @ k = if k =? i then Some x else l @ k.
Proof.
  intros Hi. unfold zset. destruct (Z.eqb_spec k i) as [->|Hne].
  - rewrite zlook_to_nat by lia. apply list_lookup_insert. unfold zlen in Hi; lia.
  - destruct (decide (k < 0)); [rewrite !zlook_neg by lia; done|].
    rewrite !zlook_to_nat by lia. apply list_lookup_insert_ne. lia.
Qed.
Lemma zlook_replicate {A} n (x : A) i : 0 <= i < Z.of_nat n -> (replicate n x) @ i = Some x.
Proof. intros H. rewrite zlook_to_nat by lia. apply lookup_replicate_2. lia. Qed.
Lemma zlook_malloc A n i : 0 <= i < n -> (malloc A n) @ i = Some None.
Proof. intros H. unfold malloc. apply zlook_replicate. lia. Qed.
Lemma zlook_seqZ lo n i : 0 <= i < n -> (seqZ lo n) @ i = Some (lo + i).
Proof. intros H. rewrite zlook_to_nat by lia. rewrite lookup_seqZ_lt by lia. f_equal. lia. Qed.
Lemma zlook_take {A} (n : nat) (l : list A) i : i < Z.of_nat n -> (take n l) @ i = l @ i.
Proof.
  intros H. destruct (decide (i < 0)); [rewrite !zlook_neg by lia; done|].
  rewrite !zlook_to_nat by lia. apply lookup_take. lia.
Qed.
Lemma zlook_drop {A} (n : nat) (l : list A) i : 0 <= i -> (drop n l) @ i = l @ (Z.of_nat n + i).
Proof.
  intros H. rewrite !zlook_to_nat by lia. rewrite lookup_drop. f_equal. lia.
Qed.
Lemma zlook_ext {A} (l k : list A) : (forall i, l @ i = k @ i) -> l = k.
Proof. intros H. apply list_eq. intros n. rewrite <- !zlook_nat. apply H. Qed.
Lemma zlook_ext_lt {A} (l k : list A) :
  zlen l = zlen k -> (forall i, 0 <= i < zlen l -> l @ i = k @ i) -> l = k.
Proof.
  intros Hl H. apply zlook_ext. intros i. destruct (decide (0 <= i < zlen l)); [auto|].
  rewrite !(proj2 (zlook_None _ _)); try done; lia.
Qed.
Lemma elem_of_zlook {A} (l : list A) x : x ∈ l <-> exists i, l @ i = Some x.
Proof.
  rewrite elem_of_list_lookup. split.
  - intros [n Hn]. exists (Z.of_nat n). rewrite zlook_nat; done.
  - intros [i Hi]. pose proof (zlook_Some_lt _ _ _ Hi). rewrite zlook_to_nat in Hi by lia. eauto.
Qed.
Lemma zlook_elem {A} (l : list A) i x : l @ i = Some x -> x ∈ l.
Proof. intros H. apply elem_of_zlook. eauto. Qed.
Lemma NoDup_zlook {A} (l : list A) :
  NoDup l <-> forall i j x, l @ i = Some x -> l @ j = Some x -> i = j.
Proof.
  rewrite NoDup_alt. split.
  - intros H i j x Hi Hj. pose proof (zlook_Some_lt _ _ _ Hi). pose proof (zlook_Some_lt _ _ _ Hj).
    rewrite zlook_to_nat in Hi by lia. rewrite zlook_to_nat in Hj by lia.
    pose proof (H _ _ _ Hi Hj). lia.
  - intros H i j x Hi Hj. rewrite <- zlook_nat in Hi. rewrite <- zlook_nat in Hj.
    pose proof (H _ _ _ Hi Hj). lia.
Qed.
Lemma zlook_rev {A} (l : list A) i : 0 <= i < zlen l -> (rev l) @ i = l @ (zlen l - 1 - i).
Proof.
  intros H. unfold zlen in *. rewrite rev_alt. change (rev_append l []) with (reverse l).
  rewrite !zlook_to_nat by lia. rewrite reverse_lookup by lia. f_equal. lia.
Qed.

Lemma Some_fmap_inj {A} (l l' : list A) : Some <$> l = Some <$> l' -> l = l'.
Proof.
  revert l'; induction l as [|x l IH]; intros [|y l'] H; simpl in H; try done. injection H as -> H. f_equal. apply IH, H.
Qed.

(** * Rules for buffer accesses *)

Lemma rd_ok {A} (l : list A) i x : l @ i = Some x -> rd l i = Ok x.
Proof. unfold rd; intros ->; done. Qed.
Lemma rd_inv {A} (l : list A) i x : rd l i = Ok x -> l @ i = Some x.
Proof. unfold rd; destruct (l @ i); congruence. Qed.
Lemma rd_ub {A} (l : list A) i : i < 0 \/ zlen l <= i -> rd l i = UB.
Proof. unfold rd; intros H. rewrite (proj2 (zlook_None l i)); done. Qed.
Lemma wr_ok {A} (l : list A) i x : 0 <= i < zlen l -> wr l i x = Ok (zset l i x).
Proof. intros H. unfold wr. replace ((0 <=? i) && (i <? zlen l)) with true by lia. done. Qed.
Lemma wr_ub {A} (l : list A) i x : i < 0 \/ zlen l <= i -> wr l i x = UB.
Proof. intros H. unfold wr. replace ((0 <=? i) && (i <? zlen l)) with false by lia. done. Qed.

Lemma wp_rd {A} (l : list A) i (Q : A -> Prop) (T : Prop) :
  0 <= i < zlen l -> (forall x, l @ i = Some x -> Q x) -> wp (rd l i) Q T.
Proof. intros Hi HQ. destruct (zlook_lt _ _ Hi) as [x Hx]. rewrite (rd_ok _ _ _ Hx). simpl; auto. Qed.
Lemma wp_wr {A} (l : list A) i x (Q : list A -> Prop) (T : Prop) :
  0 <= i < zlen l -> Q (zset l i x) -> wp (wr l i x) Q T.
Proof. intros Hi HQ. rewrite wr_ok by done. done. Qed.
Lemma wp_wrc {A} (l : list (option A)) i x (Q : list (option A) -> Prop) (T : Prop) :
  0 <= i < zlen l -> Q (zset l i (Some x)) -> wp (wrc l i x) Q T.
Proof. apply wp_wr. Qed.
Lemma rdc_ok {A} (l : list (option A)) i x : l @ i = Some (Some x) -> rdc l i = Ok x.
Proof. unfold rdc; intros ->; done. Qed.

Lemma wp_copyc {A} (src : list A) a b (dst : list (option A)) d (Q : list (option A) -> Prop) (T : Prop) :
  0 <= a -> a <= b -> b <= zlen src -> 0 <= d -> d + (b - a) <= zlen dst ->
  (forall dst', zlen dst' = zlen dst ->
     (forall k, dst' @ k = if (d <=? k) && (k <? d + (b - a)) then Some <$> (src @ (a + (k - d))) else dst @ k) ->
     Q dst') ->
  wp (copyc src a b dst d) Q T.
Proof.
  intros Ha Hab Hb Hd Hdl HQ. unfold copyc. apply wp_ubif; [lia|].
  eapply (wp_forZ (fun i dst' => zlen dst' = zlen dst /\
     forall k, dst' @ k = if (d <=? k) && (k <? d + i) then Some <$> (src @ (a + (k - d))) else dst @ k)).
  - lia.
  - split; [done|]. intros k. replace ((d <=? k) && (k <? d + 0)) with false by lia. done.
  - intros i dst' Hi [Hl Hk]. apply wp_bind. apply wp_rd; [lia|]. intros x Hx.
    apply wp_wrc; [lia|]. split; [rewrite zlen_zset; lia|]. intros k.
    rewrite zlook_zset by lia. rewrite Hk. destruct (Z.eqb_spec k (d + i)) as [->|Hne].
    + replace ((d <=? d + i) && (d + i <? d + (i + 1))) with true by lia.
      replace (a + (d + i - d)) with (a + i) by lia. rewrite Hx. done.
    + replace ((d <=? k) && (k <? d + (i + 1))) with ((d <=? k) && (k <? d + i)) by lia. done.
  - intros dst' [Hl Hk]. apply HQ; done.
Qed.

Lemma foldM_not_throw {A S} (f : S -> A -> res S) (l : list A) (s : S) :
  (forall s x, f s x <> Throw) -> foldM f l s <> Throw.
Proof.
  intros H. revert s; induction l as [|x l IH]; intros s; simpl; [done|].
  specialize (H s x). destruct (f s x); simpl; first [apply IH|done].
Qed.
Lemma rd_not_throw {A} (l : list A) i : rd l i <> Throw.
Proof. unfold rd. destruct (l @ i); done. Qed.
Lemma wr_not_throw {A} (l : list A) i x : wr l i x <> Throw.
Proof. unfold wr. destruct (_ && _); done. Qed.
Lemma bind_not_throw {A B} (m : res A) (f : A -> res B) : m <> Throw -> (forall a, f a <> Throw) -> bind m f <> Throw.
Proof. destruct m; simpl; auto. Qed.
Lemma copyc_not_throw {A} (src : list A) a b dst d : copyc src a b dst d <> Throw.
Proof.
  unfold copyc, ubif. destruct (b <? a); [done|]. apply foldM_not_throw. intros s x.
  apply bind_not_throw; [apply rd_not_throw|]. intros y. apply wr_not_throw.
Qed.

(** Splits a weakest-precondition goal one construct at a time. *)
Ltac wstep :=
  lazymatch goal with
  | |- wp (bind _ _) _ _ => apply wp_bind
  | |- wp (ifthrow _ _) _ _ => apply wp_ifthrow
  | |- wp (ubif _ _) _ _ => apply wp_ubif
  | |- wp (rd _ _) _ _ => apply wp_rd
  | |- wp (wr _ _ _) _ _ => apply wp_wr
  | |- wp (wrc _ _ _) _ _ => apply wp_wrc
  | |- wp (Ok _) _ _ => simpl
  | |- wp Throw _ _ => simpl
  end.
