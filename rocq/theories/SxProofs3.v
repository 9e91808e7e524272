(** Proofs: cells of dimension 1 reduced to a point, and quadratic cells made linear. *)
From Coq Require Import QArith ZifyBool ZifyNat.
From Verif Require Import Base DataArray IndexSpec FillLib IndexProofs3 IndexProofs4 CellTable CellModel CellProofs CellProofs5 UmModel UmSpec UmProofs UmProofs2 UmProofs10 TyModel TySpec TyProofs2 DgModel DgSpec DgProofs5 SxModel SxSpec SxProofs.
Local Open Scope Z_scope.

Lemma mid_at {A} (pre : list A) c post : (pre ++ c :: post) @ (zlen pre) = Some c.
Proof. rewrite zlook_app_r by lia. by rewrite Z.sub_diag. Qed.
Lemma remove_ok m cells : um_dim m = 1 -> stores m cells -> typed m cells -> (forall c, c ∈ cells -> (c.1 = NORM_SEG2 \/ c.1 = NORM_SEG3) /\ 2 <= zlen c.2) ->
  exists m', removeDegenerated1DCells m = Ok (m', List.existsb (fun c => negb (has_length c)) cells) /\ stores m' (List.filter has_length cells) /\ typed m' (List.filter has_length cells) /\ um_dim m' = um_dim m /\ um_coords m' = um_coords m.
Proof.
  intros Hd Hs Ht Hc. destruct (stores_get m cells Hs) as (conn & connI & Ec & EI & Hsky & _). unfold removeDegenerated1DCells, checkConnectivityFullyDefined. rewrite Ec, EI. unfold ifthrow. rewrite Hd. change (1 =? 1) with true. cbn [negb].
  rewrite (numCells_ok m cells Hs). cbn [bind].
  assert (forall pre (c : cell) post, cells = pre ++ c :: post -> exists a x y, rd connI (zlen pre) = Ok a /\ rd connI (zlen pre + 1) = Ok (a + 1 + zlen c.2) /\ rd conn a = Ok c.1 /\ (c.1 =? NORM_SEG2) || (c.1 =? NORM_SEG3) = true /\
    rd conn (a + 1) = Ok x /\ rd conn (a + 2) = Ok y /\ has_length c = negb (x =? y) /\ rdn conn a (a + 1 + zlen c.2 - a) = Ok (pk c)) as R.
  { intros pre c post E. destruct (Hc c) as [Hty H2]; [rewrite E; set_solver|]. destruct (read_cell cells conn connI Hsky (zlen pre) c) as (a & H3 & H4 & H5 & _ & H6 & H7 & _); [rewrite E; apply mid_at|].
    destruct (zlook_lt c.2 0 ltac:(lia)) as [x Hx]. destruct (zlook_lt c.2 1 ltac:(lia)) as [y Hy]. exists a, x, y. split; [done|]. split; [done|]. split; [done|]. split; [destruct Hty as [-> | ->]; done|].
    split; [apply rd_ok; replace (a + 1) with (a + 0 + 1) by lia; by rewrite H7 by lia|]. split; [apply rd_ok; replace (a + 2) with (a + 1 + 1) by lia; by rewrite H7 by lia|]. split.
    - destruct c as [t l]. cbn [fst snd] in *. destruct l as [|x' [|y' l]]; [by cbn in H2|by cbn in H2|]. cbn in Hx, Hy. injection Hx as ->. injection Hy as ->. done.
    - replace (a + 1 + zlen c.2 - a) with (1 + zlen c.2) by lia. done. }
  pose (fl := fun pre : list cell => List.filter has_length pre).
  assert (forall pre c, fl (pre ++ [c]) = if has_length c then fl pre ++ [c] else fl pre) as Fs.
  { intros pre c. unfold fl. rewrite List.filter_app. cbn. destruct (has_length c); [done|apply app_nil_r]. }
  rewrite (forZ_blocks _ (fun pre : list cell => (zlen (fl pre), zsum (lens (fl pre)))) (zlen cells) cells eq_refl).
  2:{ intros pre c post E. destruct (R pre c post E) as (a & x & y & H1 & H2 & H3 & H4 & H5 & H6 & H7 & H8). rewrite H1. cbn [bind]. rewrite H3. cbn [bind]. rewrite H4, H5. cbn [bind]. rewrite H6. cbn [bind]. rewrite Fs, H7. destruct (negb (x =? y)); [|done]. rewrite H2. cbn [bind].
      f_equal. f_equal; [rewrite zlen_app; done|]. unfold lens. rewrite !fmap_app, zsum_app. unfold pk at 3. cbn [fmap list_fmap]. rewrite zlen_cons. match goal with |- _ = _ + zsum [?x] => change (zsum [x]) with (x + 0) end. lia. }
  cbn [bind fst snd].
  assert (zlen (fl cells) <= zlen cells /\ (zlen (fl cells) = zlen cells <-> List.existsb (fun c => negb (has_length c)) cells = false) /\ (zlen (fl cells) = zlen cells -> fl cells = cells)) as (L1 & L2 & L3).
  { unfold fl. clear. induction cells as [|c cells IH]; [done|]. cbn [List.filter List.existsb]. destruct IH as (A & B & C). destruct (has_length c); cbn [negb orb]; rewrite ?zlen_cons.
    - split; [lia|]. split; [rewrite <- B; lia|]. intros H. f_equal. apply C. lia.
    - split; [lia|]. split; [split; [lia|done]|]. lia. }
  destruct (Z.eqb_spec (zlen (fl cells)) (zlen cells)) as [E|E].
  { exists m. rewrite (proj1 L2 E). fold (fl cells). rewrite (L3 E). done. }
  rewrite (forZ_blocks _ (fun pre : list cell => packed (fl pre)) (zlen cells) cells eq_refl).
  2:{ intros pre c post E'. destruct (R pre c post E') as (a & x & y & H1 & H2 & H3 & H4 & H5 & H6 & H7 & H8). rewrite H1. cbn [bind]. rewrite H5. cbn [bind]. rewrite H6. cbn [bind]. rewrite Fs, H7. destruct (negb (x =? y)); [|done]. rewrite H2. cbn [bind]. rewrite H8. cbn [bind]. apply push_pk. }
  cbn [bind]. unfold packed. cbn [fst snd]. rewrite psums_len, lens_len, pk_concat, !Z.eqb_refl. cbn [negb orb ubif].
  destruct (setConn_ok m (fl cells)) as (m' & -> & H1 & H2 & H3 & H4). cbn [bind]. exists m'. rewrite <- Hd. destruct (List.existsb _ cells) eqn:Ex; [done|]. exfalso. apply E. by apply L2.
Qed.
Lemma remove_other m cells : um_dim m = 1 -> stores m cells -> (exists c rest, cells = c :: rest /\ c.1 <> NORM_SEG2 /\ c.1 <> NORM_SEG3) -> removeDegenerated1DCells m = Throw.
Proof.
  intros Hd Hs (c & rest & -> & H2 & H3). destruct (stores_get m _ Hs) as (conn & connI & Ec & EI & Hsky & _). unfold removeDegenerated1DCells, checkConnectivityFullyDefined. rewrite Ec, EI. unfold ifthrow. rewrite Hd. change (1 =? 1) with true. cbn [negb].
  rewrite (numCells_ok m _ Hs). cbn [bind]. pose proof (zlen_nonneg rest). assert (zlen (c :: rest) = 1 + zlen rest) as HL by (unfold zlen; cbn [length]; lia).
  destruct (read_cell _ conn connI Hsky 0 c eq_refl) as (a & E1 & _ & E2 & _). rewrite forZ_step by lia. rewrite E1. cbn [bind]. rewrite E2. cbn [bind]. replace ((c.1 =? NORM_SEG2) || (c.1 =? NORM_SEG3)) with false by lia. done.
Qed.

(** What the code does with one cell. *)
Lemma linear_one c : sized c -> exists k, GetCellModel c.1 = Ok k /\
  if cm_quad k then exists cl n, GetCellModel (cm_lin k) = Ok cl /\ 0 < zlen c.2 - n /\ 0 <= n <= zlen c.2 /\ linear_cell c = (cm_lin k, take (Z.to_nat n) c.2) /\
      (if cm_dyn cl then Z.quot (zlen c.2) 2 else cm_nbpts cl) = n /\ (if negb (cm_dyn cl) then cm_nbpts k - cm_nbpts cl else Z.quot (zlen c.2) 2) = zlen c.2 - n
  else linear_cell c = c.
Proof.
  destruct c as [t l]. intros (k & Hk & Hl & Hq). exists k. cbn [fst snd] in *. split; [done|]. assert (t = cm_type k) as -> .
  { unfold GetCellModel in Hk. destruct (List.find _ models) eqn:Ef; [|done]. injection Hk as ->. apply List.find_some in Ef as [_ Ef]. lia. }
  pose proof (model_in _ _ Hk) as Hin. clear Hk. unfold models in Hin.
  repeat (apply elem_of_cons in Hin as [->|Hin]; [first [reflexivity |
     cbn in Hl; specialize (Hl eq_refl); eexists _, _; split; [reflexivity|]; rewrite Hl; split; [|split; [|split; [reflexivity|split; reflexivity]]]; cbn; lia |
     destruct (Hq eq_refl) as (n & Hn0 & Hn); exists cm_POLYGON, n; split; [reflexivity|]; rewrite Hn; split; [lia|]; split; [lia|];
     assert (Z.quot (2 * n) 2 = n) as -> by (rewrite Z.mul_comm; apply Z.quot_mul; lia);
     split; [|split; [reflexivity|cbn; lia]]; change (linear_cell (cm_type cm_QPOLYG, l)) with (NORM_POLYGON, take (length l / 2) l); do 2 f_equal; unfold zlen in Hn;
     apply Nat2Z.inj; rewrite Nat2Z.inj_div; lia]|]).
  by apply elem_of_nil in Hin.
Qed.

Lemma linear_ok m cells : um_coords m <> None -> stores m cells -> typed m cells -> (forall c, c ∈ cells -> sized c) ->
  exists m', convertQuadraticCellsToLinear m = Ok m' /\ stores m' (linear_cell <$> cells) /\ typed m' (linear_cell <$> cells) /\ um_dim m' = um_dim m /\ um_coords m' = um_coords m.
Proof.
  intros Hco Hs Ht Hc. destruct (stores_get m cells Hs) as (conn & connI & Ec & EI & Hsky & _). unfold convertQuadraticCellsToLinear, checkFullyDefined. destruct (um_coords m) as [co|] eqn:Eco; [|done]. rewrite Ec, EI. rewrite (numCells_ok m cells Hs). cbn [bind].
  pose (lost := fun pre : list cell => zsum ((fun c : cell => zlen c.2 - zlen (linear_cell c).2) <$> pre)).
  assert (forall pre c, lost (pre ++ [c]) = lost pre + (zlen c.2 - zlen (linear_cell c).2)) as Ls.
  { intros. unfold lost. rewrite fmap_app, zsum_app. cbn [fmap list_fmap]. match goal with |- _ + zsum [?x] = _ => change (zsum [x]) with (x + 0) end. lia. }
  rewrite (forZ_blocks _ lost (zlen cells) cells eq_refl).
  2:{ intros pre c post E. destruct (linear_one c) as (k & Hk & Hq); [apply Hc; rewrite E; set_solver|]. destruct (read_cell cells conn connI Hsky (zlen pre) c) as (a & H1 & H2 & H3 & _); [rewrite E; apply mid_at|].
      unfold typeAt. rewrite H1. cbn [bind]. rewrite H3. cbn [bind]. rewrite Hk. cbn [bind]. rewrite Ls. destruct (cm_quad k).
      - destruct Hq as (cl & n & Hcl & Hn1 & Hn2 & -> & _ & Hd). cbn [snd]. rewrite zlen_take by lia. rewrite Hcl. cbn [bind]. match goal with |- _ = Ok (_ + ?x) => replace x with (zlen c.2 - n) by lia end. rewrite <- Hd. destruct (negb (cm_dyn cl)); [done|]. rewrite H2. cbn [bind].
        replace (a + 1 + zlen c.2 - a - 1) with (zlen c.2) by lia. done.
      - rewrite Hq. f_equal. lia. }
  cbn [bind].
  assert (0 <= lost cells /\ (lost cells = 0 -> linear_cell <$> cells = cells)) as [Lp L0].
  { clear -Hc. unfold lost. induction cells as [|c cells IH]; [done|]. rewrite !fmap_cons. match goal with |- context [zsum (?a :: ?b)] => change (zsum (a :: b)) with (a + zsum b) end. destruct IH as [P Q]; [intros; apply Hc; by right|].
    destruct (linear_one c) as (k & Hk & Hq); [apply Hc; left|]. destruct (cm_quad k).
    - destruct Hq as (cl & n & _ & Hn1 & Hn2 & -> & _). cbn [snd]. rewrite zlen_take by lia. split; lia.
    - rewrite Hq. split; [lia|]. intros H. f_equal. apply Q. lia. }
  destruct (Z.eqb_spec (lost cells) 0) as [E0|E0].
  { exists m. rewrite (L0 E0), Eco. done. }
  pose (st := fun pre : list cell => (packed (linear_cell <$> pre), typesOf (linear_cell <$> pre))). match goal with |- context [forZ 0 (zlen cells) ?f ?s0] => change (forZ 0 (zlen cells) f s0) with (forZ 0 (zlen cells) f (st [])) end.
  rewrite (forZ_blocks _ st (zlen cells) cells eq_refl).
  2:{ intros pre c post E. destruct (linear_one c) as (k & Hk & Hq); [apply Hc; rewrite E; set_solver|]. destruct (read_cell cells conn connI Hsky (zlen pre) c) as (a & H1 & H2 & H3 & H4 & H5 & _); [rewrite E; apply mid_at|].
      rewrite H1. cbn [bind]. rewrite H2. cbn [bind]. rewrite H3. cbn [bind]. rewrite Hk. unfold st. cbn [bind]. rewrite fmap_app. cbn [fmap list_fmap]. rewrite typesOf_snoc. destruct (cm_quad k).
      - destruct Hq as (cl & n & Hcl & Hn1 & Hn2 & -> & Hd & _). cbn [negb]. rewrite Hcl. cbn [bind]. replace (a + 1 + zlen c.2 - a - 1) with (zlen c.2) by lia. rewrite Hd, H4 by lia. cbn [bind]. rewrite push_ok. cbn [bind fst]. done.
      - cbn [negb]. replace (a + 1 + zlen c.2 - a) with (1 + zlen c.2) by lia. rewrite H5. cbn [bind]. rewrite push_pk. cbn [bind]. rewrite Hq. done. }
  cbn [bind]. unfold st, packed. cbn [fst snd].
  assert (zlen (concat (pk <$> (linear_cell <$> cells))) = zlen conn - lost cells) as ->.
  { destruct Hsky as [-> _]. rewrite !pk_concat. unfold lost. clear. induction cells as [|c cells IH]; [done|]. unfold lens in *. rewrite !fmap_cons. repeat match goal with |- context [zsum (?a :: ?b)] => change (zsum (a :: b)) with (a + zsum b) end. rewrite !zlen_pk. lia. }
  rewrite Z.eqb_refl. cbn [negb ubif]. eexists. split; [reflexivity|]. split; [apply stores_sel|]. split; [by apply typed_types|]. done.
Qed.
