From Verif Require Import Base DataArray ArrLib SearchSpec StdProofs StrModel StrSpec StrProofs StrProofs2 StrProofs4 ConnProofs ConnProofs2 ConnProofs5 AmrModel AmrSpec AmrProofs AmrProofs2 AmrProofs3 AmrProofs4 AmrProofs5.
From Coq Require Import ZifyBool ZifyNat.

(** The source of the fine tuple at position [q]. *)
Definition axs (g a b f t : Z) : Z := if t <? g then a + g - 1 else if t <? g + (b - a) * f then a + g + (t - g) / f else b + g.
Fixpoint srcid (g : Z) (st : list Z) (part : box) (facts q : list Z) : Z :=
  match st, part, facts, q with n :: st, (a, b) :: part, f :: facts, t :: q => axs g a b f t + (n + 2 * g) * srcid g st part facts q | _, _, _, _ => 0 end.
Fixpoint inner (g : Z) (part : box) (facts q : list Z) : bool :=
  match part, facts, q with (a, b) :: part, f :: facts, t :: q => negb ((t <? g) || (g + (b - a) * f <=? t)) && inner g part facts q | _, _, _ => true end.
Definition srco (zone : bool) (g : Z) (st : list Z) (part : box) (facts q : list Z) : option Z := if zone && inner g part facts q then None else Some (srcid g st part facts q).
Definition gets (zone : bool) (g : Z) (st : list Z) (part : box) (facts : list Z) : list (option Z) := srco zone g st part facts <$> allpos (ghosted g (fine_st part facts)).

Section lists.
Context {A : Type} (nc : Z) (inp : list A).
Definition FS (s : list A * Z) (o : option Z) : res (list A * Z) := match o with None => Ok (skip 1 s) | Some loc => put nc inp loc s end.
Lemma put_n n kk s : foldM FS (seqZ 0 n ≫= fun _ => [Some kk]) s = forZ 0 n (fun _ s => put nc inp kk s) s.
Proof. rewrite foldM_loop. apply forZ_ext'. intros i t _. by rewrite foldM_one. Qed.
Lemma FS_pos l out op out' op' : foldM FS l (out, op) = Ok (out', op') -> op' = op + zlen l.
Proof.
  revert out op. induction l as [|o l IH]; intros out op H; cbn [foldM] in H.
  - injection H as -> ->. rewrite zlen_nil. lia.
  - rewrite zlen_cons. destruct o as [loc|]; cbn [FS skip bind] in H.
    + unfold put in H. destruct (cpT nc inp loc out op) as [o| | |]; cbn [bind] in H; try done. apply IH in H. lia.
    + apply IH in H. lia.
Qed.
Lemma FS_skips L s : (forall o, o ∈ L -> o = None) -> foldM FS L s = Ok (skip (zlen L) s).
Proof.
  revert s. induction L as [|o L IH]; intros [out ip] H; cbn [foldM].
  - cbn [skip]. rewrite zlen_nil, Z.add_0_r. done.
  - rewrite (H o) by left. cbn [FS skip bind]. rewrite IH by (intros; apply H; by right). cbn [skip]. do 2 f_equal. rewrite zlen_cons. lia.
Qed.
Definition rowS (zone : bool) (g kk d f : Z) : list (option Z) := seqZ 0 (d * f + 2 * g) ≫= pick g d f [Some kk] (fun i _ => [if zone then None else Some (kk + 1 + i)]) [Some (kk + 1 + d)].
Lemma rowS_ok g kk d f s : 0 <= g -> 0 <= d -> 0 < f -> spreadRow nc inp g kk d f s = foldM FS (rowS false g kk d f) s.
Proof.
  intros. unfold rowS. rewrite axis by done. rewrite !foldM_app', put_n. unfold spreadRow. apply bind_ext. intros t. rewrite foldM_app'.
  rewrite (forZ_carry d _ (fun i s => forZ 0 f (fun _ s => put nc inp (kk + 1 + i) s) s) _ 1); [|done|].
  - rewrite foldM_loop, bind_assoc. rewrite (forZ_ext' 0 d (fun i s0 => foldM FS _ s0) (fun i s => forZ 0 f (fun _ s => put nc inp (kk + 1 + i) s) s)).
    + apply bind_ext. intros u. cbn [bind]. rewrite put_n. replace (kk + 1 + d * 1) with (kk + 1 + d) by lia. done.
    + intros i u _. by rewrite put_n.
  - intros i u _. cbn [bind]. rewrite Z.mul_1_r. apply bind_ext. intros v. do 2 f_equal. lia.
Qed.
Lemma rowZ_ok g kk d f s : 0 <= g -> 0 <= d -> 0 < f ->
  foldM FS (rowS true g kk d f) s = let* s := forZ 0 g (fun _ s => put nc inp kk s) s in forZ 0 g (fun _ s => put nc inp (kk + 1 + d) s) (skip (f * d) s).
Proof.
  intros. unfold rowS. rewrite axis by done. rewrite !foldM_app', put_n. apply bind_ext. intros t. rewrite foldM_app'.
  rewrite FS_skips; [|intros o Ho; apply elem_of_list_bind in Ho as (i & Ho & _); apply elem_of_list_bind in Ho as (j & Ho & _); set_solver].
  cbn [bind]. rewrite (zlen_mbind _ _ f) by (intros; rewrite (zlen_mbind _ _ 1) by done; rewrite zlen_seqZ; lia). rewrite zlen_seqZ. replace (Z.max 0 d * f) with (f * d) by nia. by rewrite put_n.
Qed.
Definition planeS (zone : bool) (g base s0 a0 a1 b1 d0 f0 d1 f1 : Z) : list (option Z) :=
  seqZ 0 (d1 * f1 + 2 * g) ≫= pick g d1 f1 (rowS false g (base + (a0 + g - 1 + (s0 + 2 * g) * (a1 + g - 1))) d0 f0)
    (fun j _ => rowS zone g (base + (a0 - 1 + g + (s0 + 2 * g) * (a1 + g + j))) d0 f0) (rowS false g (base + (a0 + g - 1 + (s0 + 2 * g) * (b1 + g))) d0 f0).
Lemma planeS_ok g base s0 a0 a1 b1 d0 f0 d1 f1 s : 0 <= g -> 0 <= d0 -> 0 < f0 -> 0 <= d1 -> 0 < f1 ->
  SpreadGhost2D nc inp base s0 a0 a1 b1 f0 f1 d0 d1 g s = foldM FS (planeS false g base s0 a0 a1 b1 d0 f0 d1 f1) s.
Proof.
  intros. unfold planeS. rewrite axis by done. rewrite !foldM_app', foldM_loop. unfold SpreadGhost2D.
  rewrite (forZ_ext' 0 g (fun _ s => spreadRow nc inp g (base + (a0 + g - 1 + (s0 + 2 * g) * (a1 + g - 1))) d0 f0 s) (fun _ s => foldM FS (rowS false g (base + (a0 + g - 1 + (s0 + 2 * g) * (a1 + g - 1))) d0 f0) s)) by (intros; by apply rowS_ok).
  apply bind_ext. intros t. rewrite foldM_app', !foldM_loop.
  match goal with |- bind ?a _ = bind ?b _ => replace b with a end.
  - apply bind_ext. intros u. rewrite foldM_loop. apply forZ_ext'. intros i v _. by apply rowS_ok.
  - apply forZ_ext'. intros j u _. rewrite foldM_loop. apply forZ_ext'. intros y v _. by apply rowS_ok.
Qed.
Lemma planeZ_ok g base s0 a0 a1 b1 d0 f0 d1 f1 s : 0 <= g -> 0 <= d0 -> 0 < f0 -> 0 <= d1 -> 0 < f1 ->
  SpreadGhostZone2D nc inp base s0 a0 a1 b1 f0 f1 d0 d1 g s = foldM FS (planeS true g base s0 a0 a1 b1 d0 f0 d1 f1) s.
Proof.
  intros. unfold planeS. rewrite axis by done. rewrite !foldM_app', foldM_loop. unfold SpreadGhostZone2D.
  rewrite (forZ_ext' 0 g (fun _ s => spreadRow nc inp g (base + (a0 + g - 1 + (s0 + 2 * g) * (a1 + g - 1))) d0 f0 s) (fun _ s => foldM FS (rowS false g (base + (a0 + g - 1 + (s0 + 2 * g) * (a1 + g - 1))) d0 f0) s)) by (intros; by apply rowS_ok).
  apply bind_ext. intros t. rewrite foldM_app', !foldM_loop.
  match goal with |- bind ?a _ = bind ?b _ => replace b with a end.
  - apply bind_ext. intros u. rewrite foldM_loop. apply forZ_ext'. intros i v _. by apply rowS_ok.
  - apply forZ_ext'. intros j u _. rewrite foldM_loop. apply forZ_ext'. intros y v _. rewrite rowZ_ok by done. apply bind_ext. intros [out op]. cbn [skip].
    replace (base + (a0 - 1 + g + (s0 + 2 * g) * (a1 + g + j) + 1 + d0)) with (base + (a0 - 1 + g + (s0 + 2 * g) * (a1 + g + j)) + 1 + d0) by lia. done.
Qed.
Lemma rowS_len zone g kk d f : 0 <= g -> 0 <= d -> 0 < f -> zlen (rowS zone g kk d f) = d * f + 2 * g.
Proof.
  intros. unfold rowS. rewrite (zlen_mbind _ _ 1).
  - rewrite zlen_seqZ. nia.
  - intros x _. unfold pick. by repeat case_match.
Qed.
Lemma planeS_len zone g base s0 a0 a1 b1 d0 f0 d1 f1 : 0 <= g -> 0 <= d0 -> 0 < f0 -> 0 <= d1 -> 0 < f1 -> zlen (planeS zone g base s0 a0 a1 b1 d0 f0 d1 f1) = (d1 * f1 + 2 * g) * (d0 * f0 + 2 * g).
Proof.
  intros. unfold planeS. rewrite (zlen_mbind _ _ (d0 * f0 + 2 * g)).
  - rewrite zlen_seqZ. replace (Z.max 0 (d1 * f1 + 2 * g)) with (d1 * f1 + 2 * g) by nia. lia.
  - intros x _. unfold pick. repeat case_match; by apply rowS_len.
Qed.
Definition volS (zone : bool) (g s0 s1 a0 a1 b1 a2 b2 d0 f0 d1 f1 d2 f2 : Z) : list (option Z) :=
  seqZ 0 (d2 * f2 + 2 * g) ≫= pick g d2 f2 (planeS false g ((a2 + g - 1) * ((s0 + 2 * g) * (s1 + 2 * g))) s0 a0 a1 b1 d0 f0 d1 f1)
    (fun k _ => planeS zone g ((a2 + g + k) * ((s0 + 2 * g) * (s1 + 2 * g))) s0 a0 a1 b1 d0 f0 d1 f1) (planeS false g ((a2 + g + d2) * ((s0 + 2 * g) * (s1 + 2 * g))) s0 a0 a1 b1 d0 f0 d1 f1).
End lists.
(** The lists are the sources. *)
Lemma gets1 zone g s0 a b f : 0 <= g -> a <= b -> 0 < f -> rowS zone g (a + g - 1) (b - a) f = gets zone g [s0] [(a, b)] [f].
Proof.
  intros. unfold gets, rowS. change (ghosted g (fine_st [(a, b)] [f])) with [(b - a) * f + 2 * g]. rewrite allpos1. apply bind_ext_l. intros t Ht. unfold srco. cbn [inner srcid]. unfold pick, axs.
  destruct (t <? g) eqn:E1; [|destruct (t <? g + (b - a) * f) eqn:E2; [replace (g + (b - a) * f <=? t) with false by lia|replace (g + (b - a) * f <=? t) with true by lia]]; cbn [orb negb andb]; rewrite ?andb_false_r, ?andb_true_r.
  - do 2 f_equal. lia.
  - destruct zone; [done|]. do 2 f_equal. lia.
  - do 2 f_equal. lia.
Qed.
Lemma gets2 zone g s0 s1 a0 b0 f0 a1 b1 f1 : 0 <= g -> a0 <= b0 -> 0 < f0 -> a1 <= b1 -> 0 < f1 ->
  planeS zone g 0 s0 a0 a1 b1 (b0 - a0) f0 (b1 - a1) f1 = gets zone g [s0; s1] [(a0, b0); (a1, b1)] [f0; f1].
Proof.
  intros. unfold gets, planeS. change (ghosted g (fine_st [(a0, b0); (a1, b1)] [f0; f1])) with [(b0 - a0) * f0 + 2 * g; (b1 - a1) * f1 + 2 * g]. rewrite allpos2. apply bind_ext_l. intros u Hu. unfold pick at 1.
  destruct (u <? g) eqn:E1; [|destruct (u <? g + (b1 - a1) * f1) eqn:E2]; unfold rowS; apply bind_ext_l; intros t Ht; unfold srco, pick, axs; cbn [inner srcid]; unfold axs; rewrite E1, ?E2;
    (destruct (t <? g) eqn:E3; [|destruct (t <? g + (b0 - a0) * f0) eqn:E4; [replace (g + (b0 - a0) * f0 <=? t) with false by lia|replace (g + (b0 - a0) * f0 <=? t) with true by lia]]);
    cbn [orb negb andb]; rewrite ?andb_false_r, ?andb_true_r; try (replace (g + (b1 - a1) * f1 <=? u) with false by lia); try (replace (g + (b1 - a1) * f1 <=? u) with true by lia); cbn [orb negb andb]; rewrite ?andb_false_r, ?andb_true_r;
    try destruct zone; try done; do 2 f_equal; lia.
Qed.
Lemma gets3 zone g s0 s1 s2 a0 b0 f0 a1 b1 f1 a2 b2 f2 : 0 <= g -> a0 <= b0 -> 0 < f0 -> a1 <= b1 -> 0 < f1 -> a2 <= b2 -> 0 < f2 ->
  volS zone g s0 s1 a0 a1 b1 a2 b2 (b0 - a0) f0 (b1 - a1) f1 (b2 - a2) f2 = gets zone g [s0; s1; s2] [(a0, b0); (a1, b1); (a2, b2)] [f0; f1; f2].
Proof.
  intros. unfold gets, volS. change (ghosted g (fine_st [(a0, b0); (a1, b1); (a2, b2)] [f0; f1; f2])) with [(b0 - a0) * f0 + 2 * g; (b1 - a1) * f1 + 2 * g; (b2 - a2) * f2 + 2 * g].
  rewrite allpos3. apply bind_ext_l. intros v Hv. unfold pick at 1.
  destruct (v <? g) eqn:E5; [|destruct (v <? g + (b2 - a2) * f2) eqn:E6]; unfold planeS; apply bind_ext_l; intros u Hu; unfold pick at 1;
  (destruct (u <? g) eqn:E1; [|destruct (u <? g + (b1 - a1) * f1) eqn:E2]); unfold rowS; apply bind_ext_l; intros t Ht; unfold srco, pick, axs; cbn [inner srcid]; unfold axs; rewrite E1, E5, ?E2, ?E6;
    (destruct (t <? g) eqn:E3; [|destruct (t <? g + (b0 - a0) * f0) eqn:E4; [replace (g + (b0 - a0) * f0 <=? t) with false by lia|replace (g + (b0 - a0) * f0 <=? t) with true by lia]]);
    cbn [orb negb andb]; rewrite ?andb_false_r, ?andb_true_r; try (replace (g + (b1 - a1) * f1 <=? u) with false by lia); try (replace (g + (b1 - a1) * f1 <=? u) with true by lia); cbn [orb negb andb]; rewrite ?andb_false_r, ?andb_true_r;
    try (replace (g + (b2 - a2) * f2 <=? v) with false by lia); try (replace (g + (b2 - a2) * f2 <=? v) with true by lia); cbn [orb negb andb]; rewrite ?andb_false_r, ?andb_true_r;
    try destruct zone; try done; do 2 f_equal; lia.
Qed.
Definition result2 {A} (nc : Z) (r : res (list A * Z)) : res (da A) := let* s := r in Ok (DA true nc s.1).
Lemma plane_step {A} nc (inp : list A) N l out op (k : res (list A * Z)) : zlen l = N -> k = foldM (FS nc inp) l (out, op) -> (let* (out, _) := k in Ok (out, op + N)) = foldM (FS nc inp) l (out, op).
Proof. intros HN ->. destruct (foldM _ l (out, op)) as [[o p]| | |] eqn:E; [|done..]. cbn [bind]. apply FS_pos in E. subst. done. Qed.
Lemma ghost_spread_prog {A} zone g st part facts (fine coarse : da A) : 0 <= g -> fits g st part facts fine coarse ->
  SpreadGhost zone (Some coarse) st (Some fine) part facts g = result2 (da_nc fine) (foldM (FS (da_nc fine) (da_vals coarse)) (gets zone g st part facts) (da_vals fine, 0)).
Proof.
  intros Hg Hf. unfold SpreadGhost. rewrite checks_ok by done. pose proof (fits_okp _ _ _ _ _ _ Hf) as Hk. rewrite getDims_ok by (by eapply okp_dims). cbn [bind].
  destruct (wp_length3 st) as [(s0 & ->)|[(s0 & s1 & ->)|(s0 & s1 & s2 & ->)]]; [by destruct Hf| | |].
  - inversion Hk as [|? ? a0 b0 ? f0 ? Ha0 Hb0 Hn0 Hf0 Hk0]; subst. inversion Hk0; subst. change (box_dims [(a0, b0)]) with [b0 - a0].
    rewrite <- gets1 by lia. unfold result2. destruct zone.
    + rewrite rowZ_ok by lia. rewrite !bind_assoc. apply bind_ext. intros [out op]. cbn [bind skip]. replace (a0 + g - 1 + 1 + (b0 - a0)) with (b0 + g) by lia.
      match goal with |- context [forZ 0 g ?f ?s] => destruct (forZ 0 g f s) as [[? ?]| | |] end; done.
    + rewrite <- rowS_ok by lia. unfold spreadRow. rewrite !bind_assoc. apply bind_ext. intros t.
      rewrite (forZ_carry (b0 - a0) _ (fun i s => forZ 0 f0 (fun _ s => put (da_nc fine) (da_vals coarse) (a0 + g - 1 + 1 + i) s) s) _ 1); [|lia|].
      * rewrite !bind_assoc. rewrite (forZ_ext' 0 (b0 - a0) (fun i s => forZ 0 f0 _ s) (fun i s => forZ 0 f0 (fun _ s => put (da_nc fine) (da_vals coarse) (a0 + g - 1 + 1 + i) s) s)).
        -- apply bind_ext. intros u. cbn [bind]. replace (a0 + g - 1 + 1 + (b0 - a0) * 1) with (b0 + g) by lia. match goal with |- context [forZ 0 g ?f ?s] => destruct (forZ 0 g f s) as [[? ?]| | |] end; done.
        -- intros i u _. replace (a0 + g - 1 + 1 + i) with (a0 + g + i) by lia. done.
      * intros i u _. cbn [bind]. rewrite Z.mul_1_r. apply bind_ext. intros v. do 2 f_equal. lia.
  - inversion Hk as [|? ? a0 b0 ? f0 ? Ha0 Hb0 Hn0 Hf0 Hk0]; subst. inversion Hk0 as [|? ? a1 b1 ? f1 ? Ha1 Hb1 Hn1 Hf1 Hk1]; subst. inversion Hk1; subst. change (box_dims [(a0, b0); (a1, b1)]) with [b0 - a0; b1 - a1].
    rewrite <- gets2 by lia. unfold result2. destruct zone; [rewrite planeZ_ok by lia|rewrite planeS_ok by lia]; (match goal with |- context [foldM ?f ?l ?s] => destruct (foldM f l s) as [[? ?]| | |] end; done).
  - inversion Hk as [|? ? a0 b0 ? f0 ? Ha0 Hb0 Hn0 Hf0 Hk0]; subst. inversion Hk0 as [|? ? a1 b1 ? f1 ? Ha1 Hb1 Hn1 Hf1 Hk1]; subst. inversion Hk1 as [|? ? a2 b2 ? f2 ? Ha2 Hb2 Hn2 Hf2 Hk2]; subst. inversion Hk2; subst.
    change (box_dims [(a0, b0); (a1, b1); (a2, b2)]) with [b0 - a0; b1 - a1; b2 - a2].
    rewrite <- gets3 by lia. unfold volS, result2. rewrite axis by lia. rewrite !foldM_app', foldM_loop. rewrite !bind_assoc.
    match goal with |- bind ?a _ = bind ?b _ => replace a with b end.
    + apply bind_ext. intros t. rewrite foldM_app', bind_assoc.
      rewrite (forZ_carry (b2 - a2) _ (fun k s => forZ 0 f2 (fun _ s => foldM (FS (da_nc fine) (da_vals coarse)) (planeS zone g ((a2 + g + k) * ((s0 + 2 * g) * (s1 + 2 * g))) s0 a0 a1 b1 (b0 - a0) f0 (b1 - a1) f1) s) s) _ ((s0 + 2 * g) * (s1 + 2 * g))); [|lia|].
      * rewrite foldM_loop, !bind_assoc. match goal with |- bind ?a _ = bind ?b _ => replace a with b end.
        -- apply bind_ext. intros u. cbn [bind]. rewrite foldM_loop, bind_assoc. match goal with |- bind ?a _ = bind ?b _ => replace a with b end.
           ++ match goal with |- bind ?b _ = _ => destruct b as [[? ?]| | |] end; done.
           ++ apply forZ_ext'. intros i [out op] _. symmetry. apply plane_step; [rewrite planeS_len by lia; lia|]. rewrite planeS_ok by lia. do 2 f_equal. lia.
        -- apply forZ_ext'. intros k u _. rewrite foldM_loop. done.
      * intros k u _. cbn [bind]. match goal with |- bind ?a _ = bind ?b _ => replace b with a; [by destruct a as [s'| | |]; cbn [bind]; do 2 f_equal; lia|] end.
        apply forZ_ext'. intros y [out op] _. apply plane_step; [rewrite planeS_len by lia; lia|]. destruct zone; [rewrite planeZ_ok by lia|rewrite planeS_ok by lia]; do 2 f_equal; lia.
    + apply forZ_ext'. intros i [out op] _. symmetry. apply plane_step; [rewrite planeS_len by lia; lia|]. by rewrite planeS_ok by lia.
Qed.
