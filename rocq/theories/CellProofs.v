(** Proofs for C62: the tables. What a table says of ranks is checked by computation on the ranks, then carried over to any connectivity. *)
From Coq Require Import ZifyBool ZifyNat.
From Verif Require Import Base CellTable CellModel CellSpec.
Local Open Scope Z_scope.

Definition mapE (f : Z -> Z) (e : edge) : edge := (f e.1.1, f e.1.2, f <$> e.2).
Definition quadOf (t : Z) : bool := match GetCellModel t with Ok m => cm_quad m | _ => false end.

Lemma opp_opp e : opp (opp e) = e. Proof. destruct e as [[a b] m]. unfold opp. simpl. by rewrite rev_involutive. Qed.
Lemma opp_map f e : opp (mapE f e) = mapE f (opp e).
Proof. destruct e as [[a b] m]. unfold opp, mapE. simpl. f_equal. change (rev (map f m) = map f (rev m)). by rewrite map_rev. Qed.
Lemma rot_map f l : rot (f <$> l) = f <$> rot l.
Proof. unfold rot. by rewrite fmap_app, fmap_drop, fmap_take. Qed.
Lemma ring_map f l : ring (f <$> l) = mapE f <$> ring l.
Proof. unfold ring. rewrite rot_map. generalize (rot l). intros k. revert k. induction l as [|x l IH]; intros [|y k]; try done. simpl. f_equal. apply IH. Qed.
Lemma ring2_map f l : ring2 (f <$> l) = mapE f <$> ring2 l.
Proof.
  unfold ring2. rewrite fmap_length, <- fmap_take, rot_map, <- fmap_drop. set (h := Nat.div2 (length l)).
  generalize (take h l) as a, (rot (take h l)) as b, (drop h l) as m. intros a. induction a as [|x a IH]; intros [|y b] [|z m]; try done. simpl. f_equal. apply IH.
Qed.
Lemma edges2D_map q f l : edges2D q (f <$> l) = mapE f <$> edges2D q l.
Proof. destruct q; [apply ring2_map|apply ring_map]. Qed.

Definition rmap {A B} (f : A -> B) (r : res A) : res B := match r with Ok a => Ok (f a) | Throw => Throw | UB => UB | Fuel => Fuel end.

(** The connectivity is the image of its ranks. *)
Definition at_ (conn : list Z) (i : Z) : Z := default 0 (conn @ i).
Lemma at_seq conn : conn = at_ conn <$> seqZ 0 (zlen conn).
Proof.
  apply zlook_ext; intros i. rewrite zlook_fmap. destruct (decide (0 <= i < zlen conn)) as [Hi|Hi].
  - rewrite zlook_seqZ by lia. destruct (zlook_lt conn i Hi) as [x Hx]. unfold at_. simpl. replace (0 + i) with i by lia. by rewrite Hx.
  - rewrite (proj2 (zlook_None conn i)) by lia. rewrite (proj2 (zlook_None (seqZ _ _) i)); [done|]. unfold zlen in *. rewrite seqZ_length. lia.
Qed.
Lemma at_inj conn i j : NoDup conn -> 0 <= i < zlen conn -> 0 <= j < zlen conn -> at_ conn i = at_ conn j -> i = j.
Proof.
  intros Hnd Hi Hj H. destruct (zlook_lt conn i Hi) as [x Hx]. destruct (zlook_lt conn j Hj) as [y Hy]. unfold at_ in H. rewrite Hx, Hy in H. simpl in H. subst y.
  unfold zlook in Hx, Hy. destruct (i <? 0) eqn:E1; [lia|]. destruct (j <? 0) eqn:E2; [lia|].
  pose proof (NoDup_lookup _ _ _ _ Hnd Hx Hy). lia.
Qed.
Lemma rd_at conn i : 0 <= i < zlen conn -> rd conn i = Ok (at_ conn i).
Proof. intros Hi. destruct (zlook_lt conn i Hi) as [x Hx]. unfold at_. rewrite (rd_ok _ _ _ Hx), Hx. done. Qed.
Lemma reads_ok conn idx : Forall (fun i => 0 <= i < zlen conn) idx -> reads conn idx = Ok (at_ conn <$> idx).
Proof.
  intros H. enough (W : forall acc, foldM (fun acc i => let* v := rd conn i in Ok (acc ++ [v])) idx acc = Ok (acc ++ (at_ conn <$> idx))) by (unfold reads; by rewrite W).
  induction H as [|i idx Hi H IH]; intros acc; simpl; [by rewrite app_nil_r|].
  rewrite rd_at by done. simpl. rewrite IH. by rewrite <- app_assoc.
Qed.

(** ** What is checked on the table *)
Definition inb (n i : Z) : bool := (0 <=? i) && (i <? n).
Definition closedb (fs : list (list edge)) : bool := bool_decide (NoDup (concat fs)) && forallb (fun e => bool_decide (opp e ∈ concat fs) && negb (bool_decide (e = opp e))) (concat fs).
Definition faceb (s : Z * list Z) : bool := match GetCellModel s.1 with Ok m => (cm_dim m =? 2) && (cm_dyn m || (zlen s.2 =? cm_nbpts m)) | _ => false end.
Definition fsOf (sons : list (Z * list Z)) : list (list edge) := (fun s => edges2D (quadOf s.1) s.2) <$> sons.
Definition edgeOf (s : list Z) : edge := (at_ s 0, at_ s 1, drop 2 s).
Definition littleb (c : cm) : bool := match cm_little c with
  | None => true
  | Some ls => let es := edgeOf <$> ls in let E := concat (fsOf (cm_sons c)) in
      forallb (fun s => (zlen s =? (if cm_quad c then 3 else 2)) && forallb (inb (cm_nbpts c)) s) ls && bool_decide (NoDup es) &&
      forallb (fun e => negb (bool_decide (opp e ∈ es)) && bool_decide (e ∈ E)) es && forallb (fun e => bool_decide (e ∈ es) || bool_decide (opp e ∈ es)) E
  end.
Definition staticb (c : cm) : bool :=
  if cm_dyn c || negb (cm_dim c =? 3) then true else
  (cm_nbsons c =? zlen (cm_sons c)) && forallb (fun s => forallb (inb (cm_nbpts c)) s.2 && faceb s) (cm_sons c) && closedb (fsOf (cm_sons c)) && littleb c.
Lemma models_static : forallb staticb models = true. Proof. vm_compute. done. Qed.
Lemma forallb_elem {A} (p : A -> bool) l x : forallb p l = true -> x ∈ l -> p x = true.
Proof. intros H Hx. rewrite forallb_forall in H. apply H. by apply elem_of_list_In. Qed.

Definition edge_in (n : Z) (e : edge) : Prop := 0 <= e.1.1 < n /\ 0 <= e.1.2 < n /\ Forall (fun i => 0 <= i < n) e.2.
Lemma zip_with_in {A B C} (f : A -> B -> C) l k x : x ∈ zip_with f l k -> exists a b, a ∈ l /\ b ∈ k /\ x = f a b.
Proof.
  revert k. induction l as [|a l IH]; intros [|b k]; simpl; intros H; try by apply elem_of_nil in H.
  apply elem_of_cons in H as [->|H]; [exists a, b; repeat split; by left|]. destruct (IH k H) as (a' & b' & ? & ? & ->). exists a', b'. repeat split; by right.
Qed.
Lemma rot_in l x : x ∈ rot l -> x ∈ l.
Proof. unfold rot. intros H. rewrite <- (take_drop 1 l). apply elem_of_app in H as [H|H]; apply elem_of_app; [by right|by left]. Qed.
Lemma edges2D_in q l n : Forall (fun i => 0 <= i < n) l -> Forall (edge_in n) (edges2D q l).
Proof.
  intros H. apply Forall_forall. intros e He. rewrite Forall_forall in H. destruct q; unfold edges2D in He.
  - unfold ring2 in He. apply elem_of_list_fmap in He as (p & -> & Hp). apply zip_with_in in Hp as (p1 & m & H1 & H2 & ->). apply zip_with_in in H1 as (a & b & H3 & H4 & ->). simpl.
    repeat split; simpl.
    all: try (apply H; rewrite <- (take_drop (Nat.div2 (length l)) l); apply elem_of_app; left; first [done | by apply rot_in]).
    apply Forall_singleton. apply H. rewrite <- (take_drop (Nat.div2 (length l)) l). apply elem_of_app; by right.
  - unfold ring in He. apply elem_of_list_fmap in He as (p & -> & Hp). apply zip_with_in in Hp as (a & b & H3 & H4 & ->). simpl.
    repeat split; simpl; try constructor; try (apply H; first [done | by apply rot_in]).
Qed.
Lemma mapE_inj conn e e' : NoDup conn -> edge_in (zlen conn) e -> edge_in (zlen conn) e' -> mapE (at_ conn) e = mapE (at_ conn) e' -> e = e'.
Proof.
  intros Hnd. destruct e as [[a b] m], e' as [[a' b'] m']. unfold edge_in, mapE. simpl. intros (Ha & Hb & Hm) (Ha' & Hb' & Hm') H. injection H as H1 H2 H3.
  rewrite (at_inj conn a a'), (at_inj conn b b') by done. f_equal. clear H1 H2 Ha Hb Ha' Hb' a b a' b'. revert m' Hm' H3. induction Hm as [|x m Hx Hm IH]; intros [|y m'] Hm' H3; try done.
  simpl in H3. injection H3 as H3 H4. inversion Hm'; subst. rewrite (at_inj conn x y) by done. f_equal. by apply IH.
Qed.
Lemma closed_map conn fs : NoDup conn -> Forall (Forall (edge_in (zlen conn))) fs -> closedb fs = true -> closed_surface ((fun l : list edge => mapE (at_ conn) <$> l) <$> fs).
Proof.
  intros Hnd Hin H. unfold closedb in H. apply andb_true_iff in H as [H1 H2]. apply bool_decide_eq_true in H1.
  assert (E : concat ((fun l : list edge => mapE (at_ conn) <$> l) <$> fs) = mapE (at_ conn) <$> concat fs) by (symmetry; apply concat_map).
  assert (HI : forall e, e ∈ concat fs -> edge_in (zlen conn) e).
  { intros e He. apply elem_of_list_In, in_concat in He as (f & Hf & He). rewrite Forall_forall in Hin. specialize (Hin f ltac:(by apply elem_of_list_In)). rewrite Forall_forall in Hin. apply Hin. by apply elem_of_list_In. }
  assert (HO : forall e, e ∈ concat fs -> opp e ∈ concat fs /\ e <> opp e).
  { intros e He. pose proof (forallb_elem _ _ _ H2 He) as H. simpl in H. apply andb_true_iff in H as [H3 H4]. apply bool_decide_eq_true in H3. apply negb_true_iff in H4. apply bool_decide_eq_false in H4. done. }
  unfold closed_surface. rewrite E. repeat split.
  - apply NoDup_fmap_2_strong; [|done]. intros x y Hx Hy. apply mapE_inj; auto.
  - intros e He. apply elem_of_list_fmap in He as (x & -> & Hx). rewrite opp_map. apply elem_of_list_fmap_1. by apply HO.
  - intros e He. apply elem_of_list_fmap in He as (x & -> & Hx). rewrite opp_map. intros H. destruct (HO x Hx) as [H3 H4]. apply H4. by apply (mapE_inj conn); auto.
Qed.

Lemma seq_forall {A} (P : Z -> A -> Prop) (l : list A) : (forall k x, l @ k = Some x -> P k x) -> forall k x, l @ k = Some x -> P k x. Proof. done. Qed.

Lemma faces_ok c conn : c ∈ models -> cm_dyn c = false -> cm_dim c = 3 -> zlen conn = cm_nbpts c -> NoDup conn ->
  exists sons fs, zlen sons = getNumberOfSons2 c conn /\ (forall k s, sons @ k = Some s -> fillSon2 c k conn = Ok s) /\
    are_faces sons fs /\ closed_surface fs /\ (forall s n, s ∈ sons -> n ∈ s.2 -> n ∈ conn).
Proof.
  intros Hc Hd H3 Hl Hnd. pose proof (forallb_elem _ _ _ models_static Hc) as H. unfold staticb in H. rewrite Hd, H3 in H. simpl in H.
  apply andb_true_iff in H as [H HL]. apply andb_true_iff in H as [H HC]. apply andb_true_iff in H as [HN HS].
  assert (HI : forall s, s ∈ cm_sons c -> Forall (fun i => 0 <= i < zlen conn) s.2).
  { intros s Hs. pose proof (forallb_elem _ _ _ HS Hs) as H. simpl in H. apply andb_true_iff in H as [H _]. apply Forall_forall. intros i Hi. pose proof (forallb_elem _ _ _ H Hi). unfold inb in *. lia. }
  set (f := at_ conn).
  exists ((fun s : Z * list Z => (s.1, f <$> s.2)) <$> cm_sons c), ((fun l : list edge => mapE f <$> l) <$> fsOf (cm_sons c)).
  refine (conj _ (conj _ (conj _ (conj _ _)))).
  - rewrite zlen_fmap. unfold getNumberOfSons2. rewrite Hd. simpl. lia.
  - intros k s Hk. rewrite zlook_fmap in Hk. destruct (cm_sons c @ k) as [s0|] eqn:E; [|done]. simpl in Hk. injection Hk as <-.
    unfold fillSon2, getSonType2, fillSon. rewrite Hd. simpl. rewrite (rd_ok _ _ _ E). simpl. rewrite reads_ok; [done|]. apply HI. by eapply zlook_elem.
  - unfold are_faces, fsOf. rewrite <- list_fmap_compose. apply Forall2_fmap, Forall_Forall2_diag, Forall_forall. intros s Hs. simpl.
    pose proof (forallb_elem _ _ _ HS Hs) as H. simpl in H. apply andb_true_iff in H as [_ H]. unfold faceb in H. unfold quadOf. destruct (GetCellModel s.1) as [m| | |] eqn:E; try done.
    apply andb_true_iff in H as [Ha Hb]. exists m. split; [done|]. split; [lia|]. split; [|by rewrite edges2D_map]. intros Hdy. rewrite Hdy in Hb. simpl in Hb. rewrite zlen_fmap. lia.
  - apply closed_map; try done. unfold fsOf. apply Forall_fmap, Forall_forall. intros s Hs. simpl. apply edges2D_in. by apply HI.
  - intros s n Hs Hn. apply elem_of_list_fmap in Hs as (s0 & -> & Hs). simpl in Hn. apply elem_of_list_fmap in Hn as (i & -> & Hi). pose proof (HI s0 Hs) as H. rewrite Forall_forall in H.
    destruct (zlook_lt conn i (H i Hi)) as [x Hx]. unfold f, at_. rewrite Hx. by eapply zlook_elem.
Qed.
