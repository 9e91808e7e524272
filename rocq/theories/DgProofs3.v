(** Proofs: solid cells; the nodes are renamed by their order of appearance, which leaves finitely many cases of each type. *)
From Coq Require Import QArith ZifyBool ZifyNat.
From Verif Require Import Base DataArray CellTable CellModel UmModel UmSpec DgModel DgSpec DgProofs DgProofs2.
Local Open Scope Z_scope.

(** * The new names *)
Definition newName (d : list Z) (x : Z) : Z := match findPos x d with Some k => k | None => if x <? 0 then x else x + zlen d end.
Lemma findPos_lt x (d : list Z) k : findPos x d = Some k -> d @ k = Some x.
Proof.
  revert k. induction d as [|y d IH]; intros k; [done|]. simpl. destruct (decide (x = y)) as [->|E]; [intros [= <-]; done|].
  destruct (findPos x d) as [j|] eqn:Ej; [|done]. simpl. intros [= <-]. specialize (IH j eq_refl). pose proof (zlook_Some_lt _ _ _ IH). rewrite zlook_cons. destruct (Z.eqb_spec (j + 1) 0); [lia|]. rewrite <- IH. f_equal. lia.
Qed.
Lemma findPos_none x (d : list Z) : findPos x d = None <-> x ∉ d.
Proof.
  induction d as [|y d IH]; [simpl; split; [intros _; apply not_elem_of_nil|done]|]. simpl. rewrite not_elem_of_cons. destruct (decide (x = y)) as [->|E].
  - split; [done|]. intros [E _]. done.
  - destruct (findPos x d); simpl.
    + split; [done|]. intros [_ E2]. apply IH in E2. done.
    + split; [|done]. intros _. split; [done|]. by apply IH.
Qed.
Lemma findPos_app x (d e : list Z) : x ∈ d -> findPos x (d ++ e) = findPos x d.
Proof.
  intros Hx. induction d as [|y d IH]; [by apply elem_of_nil in Hx|]. simpl. destruct (decide (x = y)) as [->|E]; [done|]. rewrite IH; [done|]. apply elem_of_cons in Hx as [->|]; done.
Qed.
Lemma findPos_snoc x (d : list Z) : x ∉ d -> findPos x (d ++ [x]) = Some (zlen d).
Proof.
  intros Hx. induction d as [|y d IH]; [simpl; by rewrite decide_True|]. apply not_elem_of_cons in Hx as [H1 H2]. simpl. rewrite decide_False by done. rewrite IH by done. simpl. f_equal. unfold zlen. simpl. lia.
Qed.
Section name.
  Variables (d : list Z) (Hd : forall x, x ∈ d -> 0 <= x).
  Lemma newName_neg x : x < 0 -> newName d x = x.
  Proof using Hd. intros H. unfold newName. assert (findPos x d = None) as ->; [apply findPos_none; intros E; specialize (Hd x E); lia|]. destruct (Z.ltb_spec x 0); lia. Qed.
  Lemma newName_inj : Inj (=) (=) (newName d).
  Proof using Hd.
    intros x y. destruct (decide (x < 0)) as [Hx|Hx].
    - rewrite newName_neg by done. destruct (decide (y < 0)) as [Hy|Hy]; [by rewrite newName_neg|]. unfold newName. destruct (findPos y d) as [k|] eqn:E.
      + apply findPos_lt, zlook_Some_lt in E. lia.
      + pose proof (zlen_nonneg d). destruct (Z.ltb_spec y 0); lia.
    - destruct (decide (y < 0)) as [Hy|Hy].
      + rewrite (newName_neg y) by done. unfold newName. destruct (findPos x d) as [k|] eqn:E. * apply findPos_lt, zlook_Some_lt in E. lia. * pose proof (zlen_nonneg d). destruct (Z.ltb_spec x 0); lia.
      + unfold newName. destruct (findPos x d) as [k|] eqn:E, (findPos y d) as [j|] eqn:E2.
        * apply findPos_lt in E, E2. intros ->. congruence.
        * apply findPos_lt, zlook_Some_lt in E. destruct (Z.ltb_spec y 0); lia.
        * apply findPos_lt, zlook_Some_lt in E2. destruct (Z.ltb_spec x 0); lia.
        * destruct (Z.ltb_spec x 0); [lia|]. destruct (Z.ltb_spec y 0); lia.
  Qed.
  Lemma newName_sign x : (0 <=? newName d x) = (0 <=? x).
  Proof using Hd.
    destruct (decide (x < 0)) as [Hx|Hx]; [by rewrite newName_neg|]. pose proof (zlen_nonneg d). unfold newName. destruct (findPos x d) as [k|] eqn:E.
    - apply findPos_lt, zlook_Some_lt in E. lia.
    - destruct (Z.ltb_spec x 0); lia.
  Qed.
End name.

(** * The cases *)
(** The lists where a value is at most the number of the values met before. *)
Fixpoint pats (n : nat) (mx : Z) : list (list Z) :=
  match n with O => [[]] | S n => concat ((fun v => (cons v) <$> pats n (if v =? mx then mx + 1 else mx)) <$> seqZ 0 (mx + 1)) end.
Lemma distinct_elem (l : list Z) : forall (acc : list Z) (x : Z), x ∈ foldl (fun acc x => if bool_decide (x ∈ acc) then acc else acc ++ [x]) acc l <-> x ∈ acc \/ x ∈ l.
Proof.
  induction l as [|a l IH]; intros acc x; simpl; [set_solver|]. rewrite IH. case_bool_decide; set_solver.
Qed.
Lemma pats_elem (l : list Z) : forall d : list Z, exists e, foldl (fun acc x => if bool_decide (x ∈ acc) then acc else acc ++ [x]) d l = d ++ e /\
  newName (d ++ e) <$> l ∈ pats (length l) (zlen d).
Proof.
  induction l as [|a l IH]; intros d; [exists []; rewrite app_nil_r; split; [done|]; simpl; set_solver|]. cbn [foldl pats length].
  case_bool_decide as Ha.
  - destruct (IH d) as (e & E1 & E2). exists e. split; [done|]. rewrite fmap_cons. apply elem_of_list_In, in_concat.
    assert (exists k, findPos a d = Some k) as [k Hk]. { destruct (findPos a d) eqn:E; [eauto|]. apply findPos_none in E. done. }
    pose proof (zlook_Some_lt _ _ _ (findPos_lt _ _ _ Hk)) as Hkb.
    exists (cons k <$> pats (length l) (zlen d)). split.
    + apply elem_of_list_In, elem_of_list_fmap. exists k. split; [|apply elem_of_seqZ; lia]. destruct (Z.eqb_spec k (zlen d)); [lia|done].
    + apply elem_of_list_In. unfold newName at 1. rewrite findPos_app, Hk by done. apply elem_of_list_fmap_1, E2.
  - destruct (IH (d ++ [a])) as (e & E1 & E2). exists (a :: e). assert (d ++ a :: e = (d ++ [a]) ++ e) as -> by (by rewrite <- app_assoc). split; [done|]. rewrite fmap_cons. apply elem_of_list_In, in_concat.
    exists (cons (zlen d) <$> pats (length l) (zlen d + 1)). split.
    + apply elem_of_list_In, elem_of_list_fmap. exists (zlen d). pose proof (zlen_nonneg d). split; [by rewrite Z.eqb_refl|apply elem_of_seqZ; lia].
    + apply elem_of_list_In. unfold newName at 1. rewrite findPos_app by set_solver. rewrite findPos_snoc by done. apply elem_of_list_fmap_1.
      replace (zlen d + 1) with (zlen (d ++ [a])) by (unfold zlen; rewrite app_length; simpl; lia). done.
Qed.
Lemma renamed (l : list Z) : (forall x, x ∈ l -> 0 <= x) -> exists h, Inj (=) (=) h /\ h (-1) = -1 /\ (forall x, (0 <=? h x) = (0 <=? x)) /\ h <$> l ∈ pats (length l) 0.
Proof.
  intros Hl. destruct (pats_elem l []) as (e & E1 & E2). simpl app in *. exists (newName e).
  assert (forall x, x ∈ e -> 0 <= x) as He. { intros x Hx. rewrite <- E1 in Hx. apply distinct_elem in Hx as [Hx|Hx]; [by apply elem_of_nil in Hx|auto]. }
  split; [by apply newName_inj|]. split; [by apply newName_neg|]. split; [intros; by apply newName_sign|done].
Qed.

(** * The faces under new names *)
Lemma omap_c (g : Z -> option Z) i (l : list Z) : omap g (i :: l) = match g i with Some y => y :: omap g l | None => omap g l end.
Proof. done. Qed.
Section rename.
  Variables (h : Z -> Z) (Hi : Inj (=) (=) h) (Hm : h (-1) = -1).
  Lemma pieces_h (l : list Z) : pieces (h <$> l) = fmap (M := list) h <$> pieces l.
  Proof using Hi Hm.
    induction l as [|a l IH]; [done|]. rewrite fmap_cons. cbn [pieces]. rewrite IH. assert ((h a =? -1) = (a =? -1)) as ->.
    { destruct (Z.eqb_spec a (-1)) as [->|E]; [lia|]. apply Z.eqb_neq. intros E2. apply E, Hi. congruence. }
    destruct (a =? -1); [done|]. destruct (pieces l); done.
  Qed.
  Lemma faces_h c : solid_faces (hc h c) = fmap (M := list) h <$> solid_faces c.
  Proof using Hi Hm.
    unfold solid_faces. simpl. destruct (c.1 =? NORM_POLYHED); [apply pieces_h|]. rewrite <- list_fmap_compose. apply list_fmap_ext. intros _ pl _. unfold compose. cbn [snd].
    induction pl as [|i pl IH]; [done|]. rewrite !omap_c. assert ((h <$> c.2) @ i = h <$> c.2 @ i) as ->. { unfold zlook. destruct (i <? 0); [done|]. apply list_lookup_fmap. }
    rewrite IH. destruct (c.2 @ i); done.
  Qed.
  Lemma firsts_h l : firsts (h <$> l) = h <$> firsts l.
  Proof using Hi.
    induction l as [|a l IH]; [done|]. rewrite fmap_cons. cbn [firsts]. rewrite fmap_cons. f_equal. rewrite IH. generalize (firsts l). clear IH l. intros l. induction l as [|b l IH]; [done|].
    rewrite fmap_cons, !filter_cons, IH. destruct (decide (b <> a)) as [E|E].
    - rewrite decide_True by (intros E2; apply Hi in E2; done). done.
    - rewrite decide_False; [done|]. intros E2. apply E. intros ->. done.
  Qed.
  Lemma true_h c : true_faces (hc h c) = fmap (M := list) h <$> true_faces c.
  Proof using Hi Hm.
    unfold true_faces. rewrite faces_h. generalize (solid_faces c). intros F. induction F as [|f F IH]; [done|]. rewrite !fmap_cons, !filter_cons, firsts_h, IH.
    assert (zlen (h <$> firsts f) = zlen (firsts f)) as E by (unfold zlen; by rewrite fmap_length).
    destruct (decide (3 <= zlen (firsts f))); [rewrite decide_True by lia; done|rewrite decide_False by lia; done].
  Qed.
  Lemma fmap_h_inj : Inj (=) (=) (fmap (M := list) h).
  Proof using Hi. apply _. Qed.
  Lemma turned_h f g : turned (h <$> f) (h <$> g) -> turned f g.
  Proof using Hi. intros [k E]. exists k. rewrite <- fmap_drop, <- fmap_take, <- fmap_app in E. by apply fmap_h_inj in E. Qed.
  Lemma same_h F G : same_faces (fmap (M := list) h <$> F) (fmap (M := list) h <$> G) -> same_faces F G.
  Proof using Hi.
    intros (G' & HP & HF). symmetry in HP. apply Permutation_sym in HP. apply Permutation_map_inv in HP as (G2 & -> & HP). exists G2. split; [by symmetry|].
    apply Forall2_fmap_1 in HF || (change (map (fmap h) G2) with (fmap (M := list) h <$> G2) in HF; apply Forall2_fmap_1 in HF). eapply Forall2_impl; [exact HF|]. intros x y Hxy. by apply turned_h.
  Qed.
  Lemma pinched_h f : pinched (h <$> f) <-> pinched f.
  Proof using Hi.
    split; intros (a & b & c & e & E & P).
    - destruct f as [|a' [|b' [|c' [|e' [|]]]]]; try done. simpl in E. injection E as <- <- <- <-. exists a', b', c', e'. split; [done|].
      destruct P as [(P1 & P2 & P3)|(P1 & P2 & P3)]; [left|right]; (split; [by apply Hi|split; congruence]).
    - subst. exists (h a), (h b), (h c), (h e). split; [done|]. destruct P as [(P1 & P2 & P3)|(P1 & P2 & P3)]; [left|right]; (split; [congruence|split; intros E; apply Hi in E; done]).
  Qed.
End rename.

(** * The checks *)
Definition turnedb (f g : list Z) : bool := existsb (fun k => bool_decide (g = drop k f ++ take k f)) (seq 0 (length f)).
Fixpoint pickFace (f : list Z) (G : list (list Z)) : option (list Z * list (list Z)) :=
  match G with [] => None | g :: r => if turnedb f g then Some (g, r) else (fun x => (x.1, g :: x.2)) <$> pickFace f r end.
Fixpoint sameb (F G : list (list Z)) : bool :=
  match F with [] => match G with [] => true | _ => false end | f :: r => match pickFace f G with Some x => sameb r x.2 | None => false end end.
Lemma turnedb_ok f g : turnedb f g = true -> turned f g.
Proof. unfold turnedb. rewrite existsb_exists. intros (k & _ & E). apply bool_decide_eq_true in E. by exists k. Qed.
Lemma pickFace_ok f G g r : pickFace f G = Some (g, r) -> turned f g /\ G ≡ₚ g :: r.
Proof.
  revert g r. induction G as [|g0 G IH]; intros g r; [done|]. simpl. destruct (turnedb f g0) eqn:E.
  - intros [= <- <-]. split; [by apply turnedb_ok|done].
  - destruct (pickFace f G) as [[g1 r1]|] eqn:E1; [|done]. simpl. intros [= <- <-]. destruct (IH _ _ eq_refl) as [I1 I2]. split; [done|]. rewrite I2. apply Permutation_swap.
Qed.
Lemma sameb_ok F : forall G, sameb F G = true -> same_faces F G.
Proof.
  induction F as [|f F IH]; intros G; simpl.
  - destruct G; [|done]. intros _. exists []. split; [done|constructor].
  - destruct (pickFace f G) as [[g r]|] eqn:E; [|done]. intros Hs. apply pickFace_ok in E as [E1 E2]. destruct (IH _ Hs) as (G' & P & Q). exists (g :: G'). split; [|by constructor]. simpl in P. rewrite P. by rewrite E2.
Qed.
Definition pinchedb (f : list Z) : bool :=
  match f with [a; b; c; d] => (a =? c) && negb (a =? b) && negb (a =? d) || (b =? d) && negb (b =? a) && negb (b =? c) | _ => false end.
Lemma pinchedb_ok f : pinchedb f = true -> pinched f.
Proof. destruct f as [|a [|b [|c [|d [|]]]]]; try done. simpl. intros E. exists a, b, c, d. split; [done|]. lia. Qed.
(** A renamed cell: either it keeps no face and the code goes astray, or its answer has its faces. *)
Definition goodb (t : Z) (l : list Z) : bool :=
  (t =? NORM_HEXA8) && existsb pinchedb (solid_faces (t, l)) ||
  match true_faces (t, l) with
  | [] => match simplifyDegeneratedCell t l with UB => true | _ => false end
  | F => match simplifyDegeneratedCell t l with
         | Ok c => sameb (solid_faces c) F && ((c.1 =? NORM_POLYHED) || bool_decide (NoDup c.2) && (zlen c.2 =? size_of c.1))
         | _ => false end
  end.
Lemma good_tetra : forallb (goodb NORM_TETRA4) (pats 4 0) = true. Proof. vm_compute. reflexivity. Qed.
Lemma good_pyra : forallb (goodb NORM_PYRA5) (pats 5 0) = true. Proof. vm_compute. reflexivity. Qed.
Lemma good_penta : forallb (goodb NORM_PENTA6) (pats 6 0) = true. Proof. vm_compute. reflexivity. Qed.
Lemma good_hexa : forallb (goodb NORM_HEXA8) (pats 8 0) = true. Proof. vm_compute. reflexivity. Qed.
