From Verif Require Import Base DataArray ArrLib SearchSpec StdProofs StrModel StrSpec StrProofs StrProofs2 StrProofs4 ConnProofs ConnProofs2 AmrModel AmrSpec AmrProofs.
From Coq Require Import ZifyBool ZifyNat.

(** The destination of the fine cell at position [q] (ghost included), and whether its value is added. *)
Fixpoint dst (g : Z) (st : list Z) (part : box) (facts q : list Z) : option (Z * bool) :=
  match st, part, facts, q with
  | n :: st, (a, b) :: part, f :: facts, t :: q =>
    if (t <? g) || (g + (b - a) * f <=? t) then None else
    match dst g st part facts q with None => None | Some (h, ag) => Some (a + g + (t - g) / f + (n + 2 * g) * h, ag || negb ((t - g) mod f =? 0)) end
  | [], [], [], [] => Some (0, false)
  | _, _, _, _ => None
  end.
Definition steps (g : Z) (st : list Z) (part : box) (facts : list Z) : list (option (Z * bool)) := dst g st part facts <$> allpos (ghosted g (fine_st part facts)).

Section lists.
Context {A : Type} (plus : A -> A -> A) (nc : Z) (inp : list A).
Definition skip (n : Z) (s : list A * Z) : list A * Z := let '(out, ip) := s in (out, ip + n).
Definition FC (s : list A * Z) (o : option (Z * bool)) : res (list A * Z) := match o with None => Ok (skip 1 s) | Some (loc, again) => acc plus nc inp loc again s end.
Lemma skips L s : (forall o, o ∈ L -> o = None) -> foldM FC L s = Ok (skip (zlen L) s).
Proof.
  revert s. induction L as [|o L IH]; intros [out ip] H; cbn [foldM].
  - cbn [skip]. rewrite zlen_nil, Z.add_0_r. done.
  - rewrite (H o) by left. cbn [FC skip bind]. rewrite IH by (intros; apply H; by right). cbn [skip]. do 2 f_equal. rewrite zlen_cons. lia.
Qed.
Definition nones (n : Z) : list (option (Z * bool)) := seqZ 0 n ≫= fun _ => [None].
Lemma nones_none n o : o ∈ nones n -> o = None.
Proof. intros H. unfold nones in H. apply elem_of_list_bind in H as (x & Hx & _). set_solver. Qed.
Lemma nones_len n : 0 <= n -> zlen (nones n) = n.
Proof. intros H. unfold nones. rewrite (zlen_mbind _ _ 1) by done. rewrite zlen_seqZ. lia. Qed.
Definition rowC (g kk d f : Z) (ag : Z -> bool) : list (option (Z * bool)) := seqZ 0 (d * f + 2 * g) ≫= pick g d f [None] (fun i x => [Some (kk + i, ag x)]) [None].
Lemma row_ok g kk d f ag s : 0 <= g -> 0 <= d -> 0 < f ->
  foldM FC (rowC g kk d f ag) s = let* s := forZ 0 d (fun i s => forZ 0 f (fun x s => acc plus nc inp (kk + i) (ag x) s) s) (skip g s) in Ok (skip g s).
Proof.
  intros Hg Hd Hf. unfold rowC. rewrite axis by done. change (seqZ 0 g ≫= (fun _ => [@None (Z * bool)])) with (nones g). rewrite foldM_app', skips by apply nones_none. cbn [bind]. rewrite nones_len by done. rewrite foldM_app'.
  rewrite foldM_loop. rewrite (forZ_ext' 0 d _ (fun i s => forZ 0 f (fun x s => acc plus nc inp (kk + i) (ag x) s) s)).
  - apply bind_ext. intros t. rewrite skips by apply nones_none. rewrite nones_len by done. done.
  - intros i t _. rewrite foldM_loop. apply forZ_ext'. intros x u _. rewrite foldM_one. done.
Qed.
Lemma rowC_len g kk d f ag : 0 <= g -> 0 <= d -> 0 < f -> zlen (rowC g kk d f ag) = d * f + 2 * g.
Proof.
  intros. unfold rowC. rewrite (zlen_mbind _ _ 1).
  - rewrite zlen_seqZ. nia.
  - intros x _. unfold pick. by repeat case_match.
Qed.
(** Several rows. *)
Definition nones2 (n m : Z) : list (option (Z * bool)) := seqZ 0 m ≫= fun _ => nones n.
Lemma nones2_none n m o : o ∈ nones2 n m -> o = None.
Proof. intros H. unfold nones2 in H. apply elem_of_list_bind in H as (x & Hx & _). by eapply nones_none. Qed.
Lemma nones2_len n m : 0 <= n -> 0 <= m -> zlen (nones2 n m) = m * n.
Proof. intros Hn Hm. unfold nones2. rewrite (zlen_mbind _ _ n) by (intros; by apply nones_len). rewrite zlen_seqZ. lia. Qed.
Definition planeC (g kk nx d0 f0 d1 f1 : Z) (ag : Z -> bool) : list (option (Z * bool)) :=
  seqZ 0 (d1 * f1 + 2 * g) ≫= pick g d1 f1 (nones (d0 * f0 + 2 * g)) (fun j y => rowC g (kk + j * nx) d0 f0 (fun x => ag y || negb (x =? 0))) (nones (d0 * f0 + 2 * g)).
Lemma plane_ok g kk nx d0 f0 d1 f1 ag s : 0 <= g -> 0 <= d0 -> 0 < f0 -> 0 <= d1 -> 0 < f1 ->
  foldM FC (planeC g kk nx d0 f0 d1 f1 ag) s =
  let* s := forZ 0 d1 (fun j s => forZ 0 f1 (fun y s =>
    let* s := forZ 0 d0 (fun i s => forZ 0 f0 (fun x s => acc plus nc inp (kk + j * nx + i) (ag y || negb (x =? 0)) s) s) (skip g s) in Ok (skip g s)) s) (skip (g * (d0 * f0 + 2 * g)) s) in
  Ok (skip (g * (d0 * f0 + 2 * g)) s).
Proof.
  intros. unfold planeC. rewrite axis by done. change (seqZ 0 g ≫= (fun _ => nones (d0 * f0 + 2 * g))) with (nones2 (d0 * f0 + 2 * g) g). rewrite foldM_app', skips by apply (nones2_none (d0 * f0 + 2 * g) g). cbn [bind]. rewrite (nones2_len (d0 * f0 + 2 * g) g) by nia. rewrite foldM_app'.
  rewrite foldM_loop. rewrite (forZ_ext' 0 d1 _ (fun j s => forZ 0 f1 (fun y s =>
    let* s := forZ 0 d0 (fun i s => forZ 0 f0 (fun x s => acc plus nc inp (kk + j * nx + i) (ag y || negb (x =? 0)) s) s) (skip g s) in Ok (skip g s)) s)).
  - apply bind_ext. intros t. rewrite skips by apply (nones2_none (d0 * f0 + 2 * g) g). rewrite (nones2_len (d0 * f0 + 2 * g) g) by nia. done.
  - intros j t _. rewrite foldM_loop. apply forZ_ext'. intros y u _. by apply row_ok.
Qed.
Definition nones3 (n m k : Z) : list (option (Z * bool)) := seqZ 0 k ≫= fun _ => nones2 n m.
Lemma nones3_none n m k o : o ∈ nones3 n m k -> o = None.
Proof. intros H. unfold nones3 in H. apply elem_of_list_bind in H as (x & Hx & _). by eapply nones2_none. Qed.
Lemma nones3_len n m k : 0 <= n -> 0 <= m -> 0 <= k -> zlen (nones3 n m k) = k * (m * n).
Proof. intros Hn Hm Hk. unfold nones3. rewrite (zlen_mbind _ _ (m * n)) by (intros; by apply nones2_len). rewrite zlen_seqZ. lia. Qed.
Definition volC (g kk nx nxy d0 f0 d1 f1 d2 f2 : Z) : list (option (Z * bool)) :=
  seqZ 0 (d2 * f2 + 2 * g) ≫= pick g d2 f2 (nones2 (d0 * f0 + 2 * g) (d1 * f1 + 2 * g)) (fun k z => planeC g (kk + k * nxy) nx d0 f0 d1 f1 (fun y => negb (z =? 0) || negb (y =? 0)))
    (nones2 (d0 * f0 + 2 * g) (d1 * f1 + 2 * g)).
Lemma vol_ok g kk nx nxy d0 f0 d1 f1 d2 f2 s : 0 <= g -> 0 <= d0 -> 0 < f0 -> 0 <= d1 -> 0 < f1 -> 0 <= d2 -> 0 < f2 ->
  foldM FC (volC g kk nx nxy d0 f0 d1 f1 d2 f2) s =
  let* s := forZ 0 d2 (fun k s => forZ 0 f2 (fun z s =>
    let* s := forZ 0 d1 (fun j s => forZ 0 f1 (fun y s =>
    let* s := forZ 0 d0 (fun i s => forZ 0 f0 (fun x s => acc plus nc inp (kk + k * nxy + j * nx + i) ((negb (z =? 0) || negb (y =? 0)) || negb (x =? 0)) s) s) (skip g s) in Ok (skip g s)) s)
      (skip (g * (d0 * f0 + 2 * g)) s) in
    Ok (skip (g * (d0 * f0 + 2 * g)) s)) s) (skip (g * ((d1 * f1 + 2 * g) * (d0 * f0 + 2 * g))) s) in
  Ok (skip (g * ((d1 * f1 + 2 * g) * (d0 * f0 + 2 * g))) s).
Proof.
  intros. unfold volC. rewrite axis by done. change (seqZ 0 g ≫= (fun _ => nones2 (d0 * f0 + 2 * g) (d1 * f1 + 2 * g))) with (nones3 (d0 * f0 + 2 * g) (d1 * f1 + 2 * g) g). rewrite foldM_app', skips by apply (nones3_none (d0 * f0 + 2 * g) (d1 * f1 + 2 * g) g). cbn [bind]. rewrite (nones3_len (d0 * f0 + 2 * g) (d1 * f1 + 2 * g) g) by nia. rewrite foldM_app'.
  rewrite foldM_loop. rewrite (forZ_ext' 0 d2 _ (fun k s => forZ 0 f2 (fun z s =>
    let* s := forZ 0 d1 (fun j s => forZ 0 f1 (fun y s =>
    let* s := forZ 0 d0 (fun i s => forZ 0 f0 (fun x s => acc plus nc inp (kk + k * nxy + j * nx + i) ((negb (z =? 0) || negb (y =? 0)) || negb (x =? 0)) s) s) (skip g s) in Ok (skip g s)) s)
      (skip (g * (d0 * f0 + 2 * g)) s) in
    Ok (skip (g * (d0 * f0 + 2 * g)) s)) s)).
  - apply bind_ext. intros t. rewrite skips by apply (nones3_none (d0 * f0 + 2 * g) (d1 * f1 + 2 * g) g). rewrite (nones3_len (d0 * f0 + 2 * g) (d1 * f1 + 2 * g) g) by nia. done.
  - intros k t _. rewrite foldM_loop. apply forZ_ext'. intros z u _. by apply plane_ok.
Qed.
End lists.

(** The lists are the steps. *)
Lemma fmap_as_bind {A B} (f : A -> B) l : f <$> l = l ≫= (fun x => [f x]).
Proof. induction l as [|x l IH]; [done|]. rewrite fmap_cons, bind_cons, IH. done. Qed.
Lemma allpos1 {B} (F : list Z -> B) n : F <$> allpos [n] = seqZ 0 n ≫= fun t => [F [t]].
Proof. cbn [allpos]. rewrite bind_cons. change ([] ≫= _) with (@nil (list Z)). rewrite app_nil_r, <- list_fmap_compose, fmap_as_bind. done. Qed.
Lemma allpos_S {B} (F : list Z -> B) n l : F <$> allpos (n :: l) = allpos l ≫= fun h => seqZ 0 n ≫= fun t => [F (t :: h)].
Proof. cbn [allpos]. rewrite fmap_bind_l. apply bind_ext_l. intros h _. rewrite <- list_fmap_compose, fmap_as_bind. done. Qed.
Lemma bind_fmap_l {A B C} (f : A -> B) (g : B -> list C) l : (f <$> l) ≫= g = l ≫= (fun x => g (f x)).
Proof. induction l as [|x l IH]; [done|]. rewrite fmap_cons, !bind_cons, IH. done. Qed.
Lemma bind_bind_l {A B C} (f : A -> list B) (g : B -> list C) l : (l ≫= f) ≫= g = l ≫= (fun x => f x ≫= g).
Proof. induction l as [|x l IH]; [done|]. rewrite !bind_cons, bind_app, IH. done. Qed.
Lemma allpos_bind {B} (H : list Z -> list B) n l : allpos (n :: l) ≫= H = allpos l ≫= fun h => seqZ 0 n ≫= fun t => H (t :: h).
Proof. cbn [allpos]. rewrite bind_bind_l. apply bind_ext_l. intros h _. rewrite bind_fmap_l. done. Qed.
Lemma allpos_nil {B} (H : list Z -> list B) : allpos [] ≫= H = H [].
Proof. cbn [allpos]. rewrite bind_cons. change ([] ≫= _) with (@nil B). by rewrite app_nil_r. Qed.
Lemma allpos2 {B} (F : list Z -> B) n m : F <$> allpos [n; m] = seqZ 0 m ≫= fun u => seqZ 0 n ≫= fun t => [F [t; u]].
Proof. rewrite allpos_S, allpos_bind, allpos_nil. done. Qed.
Lemma allpos3 {B} (F : list Z -> B) n m k : F <$> allpos [n; m; k] = seqZ 0 k ≫= fun v => seqZ 0 m ≫= fun u => seqZ 0 n ≫= fun t => [F [t; u; v]].
Proof. rewrite allpos_S, !allpos_bind, allpos_nil. done. Qed.
Lemma steps1 g s0 a b f : 0 <= g -> a <= b -> 0 < f -> rowC g (a + g) (b - a) f (fun x => negb (x =? 0)) = steps g [s0] [(a, b)] [f].
Proof.
  intros. unfold steps, rowC. change (ghosted g (fine_st [(a, b)] [f])) with [(b - a) * f + 2 * g]. rewrite allpos1. apply bind_ext_l. intros t Ht. cbn [dst]. unfold pick.
  destruct (t <? g) eqn:E1; [done|]. destruct (t <? g + (b - a) * f) eqn:E2; [replace (g + (b - a) * f <=? t) with false by lia|replace (g + (b - a) * f <=? t) with true by lia; done]. cbn [orb]. do 3 f_equal. lia.
Qed.
Lemma steps2 g s0 s1 a0 b0 f0 a1 b1 f1 : 0 <= g -> a0 <= b0 -> 0 < f0 -> a1 <= b1 -> 0 < f1 ->
  planeC g (a0 + g + (s0 + 2 * g) * (a1 + g)) (s0 + 2 * g) (b0 - a0) f0 (b1 - a1) f1 (fun y => negb (y =? 0)) = steps g [s0; s1] [(a0, b0); (a1, b1)] [f0; f1].
Proof.
  intros. unfold steps, planeC. change (ghosted g (fine_st [(a0, b0); (a1, b1)] [f0; f1])) with [(b0 - a0) * f0 + 2 * g; (b1 - a1) * f1 + 2 * g]. rewrite allpos2. apply bind_ext_l. intros u Hu. unfold pick at 1.
  destruct (u <? g) eqn:E1; [|destruct (u <? g + (b1 - a1) * f1) eqn:E2].
  - apply bind_ext_l. intros t Ht. cbn [dst]. rewrite E1. cbn [orb]. by case_match.
  - unfold rowC. apply bind_ext_l. intros t Ht. cbn [dst]. unfold pick. rewrite E1. replace (g + (b1 - a1) * f1 <=? u) with false by lia. cbn [orb].
    destruct (t <? g) eqn:E3; [done|]. destruct (t <? g + (b0 - a0) * f0) eqn:E4; [replace (g + (b0 - a0) * f0 <=? t) with false by lia|replace (g + (b0 - a0) * f0 <=? t) with true by lia; done]. cbn [orb]. do 3 f_equal. lia.
  - apply bind_ext_l. intros t Ht. cbn [dst]. rewrite E1. replace (g + (b1 - a1) * f1 <=? u) with true by lia. cbn [orb]. by case_match.
Qed.
Lemma steps3 g s0 s1 s2 a0 b0 f0 a1 b1 f1 a2 b2 f2 : 0 <= g -> a0 <= b0 -> 0 < f0 -> a1 <= b1 -> 0 < f1 -> a2 <= b2 -> 0 < f2 ->
  volC g (a0 + g + (s0 + 2 * g) * (a1 + g) + (s0 + 2 * g) * (s1 + 2 * g) * (a2 + g)) (s0 + 2 * g) ((s0 + 2 * g) * (s1 + 2 * g)) (b0 - a0) f0 (b1 - a1) f1 (b2 - a2) f2
  = steps g [s0; s1; s2] [(a0, b0); (a1, b1); (a2, b2)] [f0; f1; f2].
Proof.
  intros. unfold steps, volC. change (ghosted g (fine_st [(a0, b0); (a1, b1); (a2, b2)] [f0; f1; f2])) with [(b0 - a0) * f0 + 2 * g; (b1 - a1) * f1 + 2 * g; (b2 - a2) * f2 + 2 * g].
  rewrite allpos3. apply bind_ext_l. intros v Hv. unfold pick at 1.
  destruct (v <? g) eqn:E5; [|destruct (v <? g + (b2 - a2) * f2) eqn:E6].
  - apply bind_ext_l. intros u Hu. apply bind_ext_l. intros t Ht. cbn [dst]. rewrite E5. cbn [orb]. by repeat case_match.
  - unfold planeC. apply bind_ext_l. intros u Hu. unfold pick at 1. destruct (u <? g) eqn:E1; [|destruct (u <? g + (b1 - a1) * f1) eqn:E2].
    + apply bind_ext_l. intros t Ht. cbn [dst]. rewrite E1. cbn [orb]. by case_match.
    + unfold rowC. apply bind_ext_l. intros t Ht. cbn [dst]. unfold pick. rewrite E1, E5. replace (g + (b1 - a1) * f1 <=? u) with false by lia. replace (g + (b2 - a2) * f2 <=? v) with false by lia. cbn [orb].
      destruct (t <? g) eqn:E3; [done|]. destruct (t <? g + (b0 - a0) * f0) eqn:E4; [replace (g + (b0 - a0) * f0 <=? t) with false by lia|replace (g + (b0 - a0) * f0 <=? t) with true by lia; done]. cbn [orb]. do 3 f_equal. lia.
    + apply bind_ext_l. intros t Ht. cbn [dst]. rewrite E1. replace (g + (b1 - a1) * f1 <=? u) with true by lia. cbn [orb]. by case_match.
  - apply bind_ext_l. intros u Hu. apply bind_ext_l. intros t Ht. cbn [dst]. rewrite E5. replace (g + (b2 - a2) * f2 <=? v) with true by lia. cbn [orb]. by repeat case_match.
Qed.
