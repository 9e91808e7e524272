From stdpp Require Import strings.
From Coq Require Import ZifyBool ZifyNat.
From Verif Require Import Base StdModel SearchSpec StdProofs SerModel SerSpec SerProofs.
Local Open Scope string_scope.
Local Open Scope Z_scope.
Local Open Scope list_scope.

Lemma types_ok (conn index : arr Z) types : types_of conn index types ->
  computeTypes conn index = Ok types.
Proof.
  intros (H1 & H2 & H3). unfold computeTypes, nElems. destruct (Z.ltb_spec 0 (zlen (vals index) - 1)).
  - apply wp_ok_eq. eapply (wp_forZ (fun k ty => enumerates (fun t => exists i p, 0 <= i < k /\ vals index @ i = Some (Some p) /\ vals conn @ p = Some (Some t)) ty)); [lia|..].
    + split; [by apply increasing_SS; constructor|]. intros t. split; [by intros ?%elem_of_nil|]. intros (i & p & ? & _). lia.
    + intros k ty Hk [I1 I2]. destruct (H2 k) as (p & t & E1 & E2); [lia|]. rewrite (rdc_ok _ _ p) by done. bok. rewrite (rdc_ok _ _ t) by done. bok. cbn [wp].
      split; [apply increasing_SS, SS_sins, increasing_SS, I1|]. intros x. rewrite elem_of_sins, I2. split.
      * intros [->|(i & q & Hi & E)]; [exists k, p|exists i, q]; (split; [lia|done]).
      * intros (i & q & Hi & E3 & E4). destruct (Z.eq_dec i k) as [->|]; [left; congruence|right; exists i, q; split; [lia|done]].
    + intros ty Hty. eapply enumerates_ext; [exact Hty|]. split; [done|exact H3].
  - f_equal. destruct types as [|t l]; [done|]. destruct (proj1 (H3 t) (elem_of_list_here t l)) as (i & p & ? & _). lia.
Qed.

Definition nbC {D} (m : umesh D) : Z := match u_index m with Some ix => zlen (vals ix) - 1 | None => 1 end.
Definition uI {D} (m : umesh D) : list Z :=
  match u_coords m with Some c => [5; nComp c; nTuples c] | None => [5; -1; -1] end ++
  [h_it (u_head m); h_ord (u_head m); u_dim m; nbC m; match u_conn m with Some c => nElems c | None => -1 end].
Definition uS {D} (m : umesh D) : list string :=
  match u_coords m with Some c => [h_name (u_head m); h_desc (u_head m); a_name c; h_unit (u_head m)] ++ a_info c | None => [h_name (u_head m); h_desc (u_head m); h_unit (u_head m)] end.
Lemma umesh_dim {D} (m : umesh D) : umesh_ok m -> meshDim m = Ok (u_dim m) /\ nbCells m = Ok (nbC m).
Proof.
  intros (H1 & _ & H3). unfold meshDim, nbCells, nbC. replace (u_dim m <? -1) with false by lia. split; [done|]. destruct (u_conn m), (u_index m) as [ix|]; try done.
  - destruct H3 as (_ & _ & H & _). by rewrite column_tuples.
  - destruct H3 as (-> & _). done.
Qed.
Lemma umesh_tiny_ok {D} (m : umesh D) : umesh_ok m -> umesh_tiny m = Ok ([h_time (u_head m)], uI m, uS m).
Proof.
  intros H. destruct (umesh_dim m H) as [E1 E2]. unfold umesh_tiny. rewrite E1, E2. unfold uI, uS. destruct (u_coords m); bok; bok; done.
Qed.
Definition packed {D} (m : umesh D) : option (list (option Z)) := match u_conn m, u_index m with Some c, Some i => Some (vals i ++ vals c) | _, _ => None end.
Lemma umesh_serialize_ok {D} (m : umesh D) : umesh_ok m -> umesh_serialize m = Ok (flat <$> packed m, u_coords m).
Proof.
  intros H. destruct (umesh_dim m H) as [E1 E2]. destruct H as (H1 & _ & H3). unfold umesh_serialize. rewrite E1. bok. unfold packed, nbC in *.
  destruct (u_conn m) as [c|], (u_index m) as [ix|]; try done.
  - replace (-1 <? u_dim m) with true by lia. unfold deref. rewrite E2. bok. rewrite subv_all by lia. bok. bok. done.
  - destruct H3 as (-> & _). change (-1 <? -1) with false. cbv iota. bok. done.
Qed.
Lemma nComp_pos {V} (a : arr V) : a_info a <> [] -> 1 <= nComp a.
Proof. unfold nComp. destruct (a_info a); [done|]. intros _. rewrite zlen_cons. pose proof (zlen_nonneg l). lia. Qed.
Definition u1 {D} (m : umesh D) : arr Z := match packed m with Some l => Arr "" [""] (Some (malloc Z (zlen l))) | None => newArr end.
Definition u2 {D} (m : umesh D) : arr D := match u_coords m with Some c => shell c | None => newArr end.
Lemma umesh_resize_ok {D} (m : umesh D) : umesh_ok m -> umesh_resize (uI m) newArr newArr = Ok (u1 m, u2 m, zlen (uS m)).
Proof.
  intros (H1 & H2 & H3). unfold umesh_resize, uI, uS, u1, u2, packed, nbC.
  set (n := match u_index m with Some ix => zlen (vals ix) - 1 | None => 1 end). set (k := match u_conn m with Some c => nElems c | None => -1 end).
  assert (R : (if u_dim m =? -1 then Ok newArr else allocA (k + n + 1) 1 (@newArr Z)) =
    Ok (match (match u_conn m with Some c => match u_index m with Some i => Some (vals i ++ vals c) | None => None end | None => None end) with Some l => Arr "" [""] (Some (malloc Z (zlen l))) | None => newArr end)).
  { unfold n, k. destruct (u_conn m) as [c|], (u_index m) as [ix|]; try done.
    - replace (u_dim m =? -1) with false by lia. pose proof (zlen_nonneg (vals c)). pose proof (zlen_nonneg (vals ix)). rewrite alloc_new by (done || unfold nElems; lia).
      do 4 f_equal. rewrite zlen_app. unfold nElems. lia.
    - destruct H3 as (-> & _). done. }
  destruct (u_coords m) as [c0|].
  - destruct H2 as (K1 & K2 & K3). pose proof (nComp_pos c0 K3). pose proof (arr_ok_mul c0 K1) as (E & P1 & P2). cbn [app]. do 2 rdl. replace (_ && _) with true by lia.
    rewrite alloc_new by (done || lia). bok. bok. do 3 rdl. rewrite R. bok. unfold shell. rewrite K2, E. unfold nComp, zlen. rewrite Nat2Z.id. cbn [length]. do 2 f_equal. lia.
  - cbn [app]. do 2 rdl. cbv iota. change (_ && _) with false. cbv iota. bok. do 3 rdl. rewrite R. bok. done.
Qed.
Lemma types_blank c i ty : types_of c i ty -> types_of (blank c) (blank i) ty.
Proof. done. Qed.
Lemma column_blank {V} (c : arr V) : column c -> Arr "" [""] (Some (vals c)) = blank c.
Proof. intros (s & l & E1 & E2). unfold blank, vals. rewrite E2. done. Qed.
Definition uhead {D} (tD : list D) (tI : list Z) (a2 : option (arr D)) (tS : list string) : res (option (arr D) * head D) :=
  let* nn := rd tI 2 in let* sd := rd tI 1 in
  if (0 <=? nn) && (1 <=? sd) then
    let* name := rd tS 0 in let* desc := rd tS 1 in
    deref a2 (fun a2 =>
    let* cname := rd tS 2 in let a2 := setName cname a2 in
    let* unit := rd tS 3 in
    let* a2 := forZ 0 sd (fun i a2 => let* s := rd tS (i + 4) in setInfo i s a2) a2 in
    let* time := rd tD 0 in let* it := rd tI 3 in let* ord := rd tI 4 in
    Ok (Some a2, Head name desc unit time it ord))
  else
    let* name := rd tS 0 in let* desc := rd tS 1 in let* unit := rd tS 2 in
    let* time := rd tD 0 in let* it := rd tI 3 in let* ord := rd tI 4 in
    Ok (None, Head name desc unit time it ord).
Lemma uhead_split {D} (tD : list D) tI a1 a2 tS : umesh_unserialize tD tI a1 a2 tS =
  bind (uhead tD tI a2 tS) (fun '(coords, hd) =>
  let* dim := rd tI 5 in
  throw_if (dim <? -1) || (3 <? dim) >>>
  let* len := rd tI 7 in
  if len =? -1 then Ok (UMesh hd dim [] coords None None) else
  deref a1 (fun a1 =>
  let* n := rd tI 6 in
  let* index := allocA (n + 1) 1 newArr in
  let* v := subv (vals a1) 0 (n + 1) in
  let* index := copyTo v 0 index in
  let* conn := allocA len 1 newArr in
  let* v := subv (vals a1) (n + 1) (n + 1 + len) in
  let* conn := copyTo v 0 conn in
  let* types := computeTypes conn index in
  Ok (UMesh hd dim types coords (Some conn) (Some index)))).
Proof. unfold umesh_unserialize, uhead. destruct (rd tI 2), (rd tI 1); reflexivity. Qed.
Lemma umesh_unser_ok {D} (m : umesh D) (t : D) a1 a2 : umesh_ok m ->
  (forall l, packed m = Some l -> exists b, a1 = Some b /\ vals b = l) ->
  (forall c, u_coords m = Some c -> exists b, a2 = Some b /\ a_mem b = a_mem c /\ length (a_info b) = length (a_info c)) ->
  umesh_unserialize [t] (uI m) a1 a2 (uS m) = Ok (untimed t (umesh_rebuilt m)).
Proof.
  intros (H1 & H2 & H3) A1 A2. rewrite uhead_split.
  assert (R : uhead [t] (uI m) a2 (uS m) = Ok (u_coords m, u_head (untimed t m))).
  { unfold uhead, uI, uS. destruct (u_coords m) as [c|].
    - destruct H2 as (K1 & K2 & K3). pose proof (nComp_pos c K3). pose proof (arr_ok_mul c K1) as (E & P1 & P2).
      destruct (A2 c eq_refl) as ([nb ib mb] & -> & B1 & B2). cbn [a_mem a_info] in *. cbn [app]. do 2 rdl. replace (_ && _) with true by lia. do 2 rdl. unfold deref. rdl. rdl.
      unfold setName; cbn [a_info a_mem]. rewrite (infos_ok [h_name (u_head m); h_desc (u_head m); a_name c; h_unit (u_head m)] (a_info c) ib 4 (nComp c)) by done. bok.
      do 3 rdl. rewrite B1. destruct c; done.
    - cbn [app]. do 2 rdl. cbv iota. change (_ && _) with false. cbv iota. do 6 rdl. done. }
  rewrite R. bok. clear R.
  assert (E5 : rd (uI m) 5 = Ok (u_dim m)) by (unfold uI; destruct (u_coords m); done).
  assert (E6 : rd (uI m) 6 = Ok (nbC m)) by (unfold uI; destruct (u_coords m); done).
  assert (E7 : rd (uI m) 7 = Ok (match u_conn m with Some c => nElems c | None => -1 end)) by (unfold uI; destruct (u_coords m); done).
  rewrite E5, E6, E7. bok. replace (_ || _) with false by lia. unfold ifthrow. bok. unfold nbC, packed, untimed, umesh_rebuilt in *. cbn [u_head u_dim u_types u_coords u_conn u_index] in *.
  destruct (u_conn m) as [c|], (u_index m) as [ix|]; try done.
  2:{ destruct H3 as (_ & ->). done. }
  destruct H3 as (_ & C1 & C2 & Ty). destruct (A1 _ eq_refl) as (b & -> & Hb). pose proof (zlen_nonneg (vals c)). pose proof (zlen_nonneg (vals ix)). unfold nElems.
  replace (zlen (vals c) =? -1) with false by lia. unfold deref. bok. rewrite Z.sub_add. rewrite alloc_new by (done || lia). bok.
  rewrite Hb. rewrite (subv_mid _ [] (vals ix) (vals c)) by done. bok. rewrite copy_full' by lia. bok. rewrite alloc_new by (done || lia). bok.
  rewrite (subv_mid _ (vals ix) (vals c) []) by (rewrite ?app_nil_r; done). bok. rewrite copy_full' by lia. bok.
  change (replicate (Z.to_nat 1) "") with [""]. change (a_name newArr) with "". rewrite !column_blank by done. rewrite (types_ok _ _ (u_types m)) by done. bok. done.
Qed.
Lemma untimed_same {D} (m : umesh D) : untimed (h_time (u_head m)) m = m.
Proof. destruct m as [[]]. done. Qed.
Lemma umesh_pickle_ok {D} (m : umesh D) : umesh_ok m -> umesh_pickle m = Ok (umesh_rebuilt m).
Proof.
  intros H. unfold umesh_pickle. rewrite umesh_tiny_ok by done. bok. rewrite umesh_serialize_ok by done. bok. rewrite umesh_unser_ok; [|done|..].
  - change (u_head m) with (u_head (umesh_rebuilt m)). rewrite untimed_same. done.
  - intros l ->. eexists. split; [reflexivity|done].
  - intros c ->. eexists. split; [reflexivity|done].
Qed.
Lemma recv1 {D} (m : umesh D) : exists x, recvO (flat <$> packed m) (u1 m) = Ok x /\ forall l, packed m = Some l -> vals x = l.
Proof.
  unfold u1. destruct (packed m) as [l|]; cbn [recvO fmap option_fmap option_map]; [|eexists; split; done].
  unfold recv. rewrite copy_full' by done. eexists. split; [done|]. intros ? [= ->]. done.
Qed.
Lemma filled_info {V} (c : arr V) : isAlloc c = true -> a_mem (filled c) = a_mem c /\ length (a_info (filled c)) = length (a_info c).
Proof. intros H. unfold filled. rewrite H. cbn [a_mem a_info]. rewrite replicate_length. done. Qed.
Lemma umesh_transmit_ok {D} (m : umesh D) : umesh_ok m -> umesh_transmit m = Ok (umesh_rebuilt m).
Proof.
  intros H. unfold umesh_transmit. rewrite umesh_tiny_ok by done. bok. rewrite umesh_resize_ok by done. bok. rewrite umesh_serialize_ok by done. bok.
  destruct (recv1 m) as (x & -> & Hx). bok.
  assert (R : exists y, recvO (u_coords m) (u2 m) = Ok y /\ forall c, u_coords m = Some c -> a_mem y = a_mem c /\ length (a_info y) = length (a_info c)).
  { destruct H as (_ & H & _). unfold u2. destruct (u_coords m) as [c|]; [|eexists; split; done]. unfold recvO, recv. rewrite copy_shell. eexists. split; [done|].
    intros ? [= <-]. apply filled_info. tauto. }
  destruct R as (y & -> & Hy). bok. rewrite umesh_unser_ok; [|done|..].
  - change (u_head m) with (u_head (umesh_rebuilt m)). rewrite untimed_same. done.
  - intros l E. exists x. split; [done|by apply Hx].
  - intros c E. exists y. split; [done|by apply Hy].
Qed.

(** ** Extruded mesh. *)
Lemma rd_at {T} (l a : list T) x b p : l = a ++ x :: b -> p = zlen a -> rd l p = Ok x.
Proof. apply rd_mid. Qed.
Lemma copy_sub {V} (src : list (option V)) (c : arr V) : src = vals c -> copyTo src 0 (shell c) = Ok (filled c).
Proof. intros ->. apply copy_shell. Qed.
Lemma u1_len {D} (m : umesh D) l : packed m = Some l -> nElems (u1 m) = zlen l.
Proof. unfold u1. intros ->. rewrite nElems_malloc; [done|apply zlen_nonneg]. Qed.
Lemma copy_len {V} (src : list (option V)) (a b : arr V) d : copyTo src d a = Ok b -> nElems b = nElems a.
Proof.
  intros H. assert (0 <= d /\ d + zlen src <= nElems a) as [K1 K2].
  { unfold copyTo in H. destruct (_ || _) eqn:E in H; [done|lia]. }
  destruct (copyTo_len src d a K1 K2) as (b' & E & L). congruence.
Qed.
Lemma emesh_unser_ok {D} (zero : D) (m : emesh D) (a1 : arr Z) (a2 : arr D) x1 x2 c1 c2 : emesh_ok m ->
  packed (e_2D m) = Some x1 -> packed (e_1D m) = Some x2 -> u_coords (e_2D m) = Some c1 -> u_coords (e_1D m) = Some c2 ->
  vals a1 = x1 ++ x2 ++ vals (e_ids m) -> vals a2 = vals c1 ++ vals c2 ->
  emesh_unserialize zero (uI (e_2D m) ++ uI (e_1D m) ++ [e_cell m; zlen (uI (e_2D m)); nElems (e_ids m)]) a1 a2
    (uS (e_2D m) ++ uS (e_1D m) ++ [h_name (e_head m); h_desc (e_head m)]) = Ok (emesh_rebuilt zero m).
Proof.
  intros (H1 & H2 & D1 & D2 & K1 & K2 & Ci) P1 P2 C1 C2 V1 V2. unfold emesh_unserialize. cbv zeta.
  pose proof (zlen_nonneg x1). pose proof (zlen_nonneg x2). pose proof (zlen_nonneg (vals (e_ids m))). pose proof (zlen_nonneg (vals c1)). pose proof (zlen_nonneg (vals c2)).
  assert (L1 : nElems (u1 (e_2D m)) = zlen x1) by (by apply u1_len). assert (L2 : nElems (u1 (e_1D m)) = zlen x2) by (by apply u1_len).
  assert (Y1 : u2 (e_2D m) = shell c1) by (unfold u2; by rewrite C1). assert (Y2 : u2 (e_1D m) = shell c2) by (unfold u2; by rewrite C2).
  remember (uI (e_2D m)) as I1 eqn:EI1. remember (uI (e_1D m)) as I2 eqn:EI2. remember (uS (e_2D m)) as S1 eqn:ES1. remember (uS (e_1D m)) as S2 eqn:ES2.
  rewrite (rd_at _ (S1 ++ S2) (h_name (e_head m)) [h_desc (e_head m)]) by (rewrite <- ?app_assoc, ?zlen_app; try done; cbn; unfold zlen; cbn; lia). bok.
  rewrite (rd_at _ (S1 ++ S2 ++ [h_name (e_head m)]) (h_desc (e_head m)) []) by (rewrite <- ?app_assoc, ?zlen_app; try done; unfold zlen; cbn [length]; lia). bok.
  rewrite (rd_at _ (I1 ++ I2 ++ [e_cell m]) (zlen I1) [nElems (e_ids m)]) by (rewrite <- ?app_assoc, ?zlen_app; try done; unfold zlen; cbn [length]; lia). bok.
  rewrite (rd_at _ (I1 ++ I2) (e_cell m) [zlen I1; nElems (e_ids m)]) by (rewrite <- ?app_assoc, ?zlen_app; try done; unfold zlen; cbn [length]; lia). bok.
  rewrite (subv_mid _ [] I1 (I2 ++ [e_cell m; zlen I1; nElems (e_ids m)])) by done. bok.
  rewrite (subv_mid _ I1 I2 [e_cell m; zlen I1; nElems (e_ids m)]) by (rewrite ?zlen_app; try done; unfold zlen; cbn [length]; lia). bok.
  subst I1. rewrite umesh_resize_ok by done. bok. rewrite Y1, L1, shell_len.
  rewrite V2, (subv_mid _ [] (vals c1) (vals c2)) by done. bok. rewrite copy_shell. bok.
  rewrite V1, (subv_mid _ [] x1 (x2 ++ vals (e_ids m))) by done. bok.
  assert (R1 : copyTo x1 0 (u1 (e_2D m)) = Ok (Arr "" [""] (Some x1))) by (unfold u1; rewrite P1; by apply copy_full'). rewrite R1. bok.
  rewrite <- ES1. rewrite (subv_mid _ [] S1 (S2 ++ [h_name (e_head m); h_desc (e_head m)])) by done. bok. subst S1.
  rewrite umesh_unser_ok; [|done|intros l E; eexists; split; [done|]; cbn; congruence|]. 
  2:{ intros c E. eexists; split; [done|]. rewrite C1 in E. injection E as <-. apply filled_info. destruct H1 as (_ & H1 & _). rewrite C1 in H1. tauto. }
  bok. rewrite (subv_mid _ (uS (e_2D m)) S2 [h_name (e_head m); h_desc (e_head m)]) by (rewrite ?zlen_app; try done; unfold zlen; cbn [length]; lia). bok. subst S2 I2.
  rewrite umesh_resize_ok by done. bok. rewrite Y2, L2, filled_len, shell_len.
  rewrite (subv_mid _ (vals c1) (vals c2) []) by (rewrite ?app_nil_r; done). bok. rewrite copy_shell. bok. change (nElems (Arr "" [""] (Some x1))) with (zlen x1).
  rewrite (subv_mid _ x1 x2 (vals (e_ids m))) by done. bok.
  assert (R2 : copyTo x2 0 (u1 (e_1D m)) = Ok (Arr "" [""] (Some x2))) by (unfold u1; rewrite P2; by apply copy_full'). rewrite R2. bok.
  rewrite umesh_unser_ok; [|done|intros l E; eexists; split; [done|]; cbn; congruence|]. 
  2:{ intros c E. eexists; split; [done|]. rewrite C2 in E. injection E as <-. apply filled_info. destruct H2 as (_ & H2 & _). rewrite C2 in H2. tauto. }
  bok. change (nElems (Arr "" [""] (Some x2))) with (zlen x2).
  assert (N : nElems a1 - (zlen x1 + zlen x2) = zlen (vals (e_ids m))) by (unfold nElems; rewrite V1, !zlen_app; lia). rewrite N.
  rewrite alloc_new by (done || lia). bok. rewrite (subv_mid _ (x1 ++ x2) (vals (e_ids m)) []) by (rewrite ?app_nil_r, <- ?app_assoc, ?zlen_app; done). bok.
  rewrite copy_full' by lia. bok. change (replicate (Z.to_nat 1) "") with [""]. change (a_name newArr) with "". rewrite column_blank by done. done.
Qed.
Lemma packed_some {D} (m : umesh D) : umesh_ok m -> 0 <= u_dim m -> exists l, packed m = Some l.
Proof. intros (_ & _ & H) Hd. unfold packed. destruct (u_conn m), (u_index m); try done; [by eexists|destruct H; lia]. Qed.
Lemma emesh_tiny_ok {D} (m : emesh D) : emesh_ok m -> emesh_tiny m =
  Ok ([], uI (e_2D m) ++ uI (e_1D m) ++ [e_cell m; zlen (uI (e_2D m)); nElems (e_ids m)], uS (e_2D m) ++ uS (e_1D m) ++ [h_name (e_head m); h_desc (e_head m)]).
Proof. intros (H1 & H2 & _). unfold emesh_tiny. rewrite !umesh_tiny_ok by done. bok. bok. done. Qed.
Lemma emesh_serialize_ok {D} (m : emesh D) : emesh_ok m -> exists x1 x2 c1 c2,
  packed (e_2D m) = Some x1 /\ packed (e_1D m) = Some x2 /\ u_coords (e_2D m) = Some c1 /\ u_coords (e_1D m) = Some c2 /\
  emesh_serialize m = Ok (flat (x1 ++ x2 ++ vals (e_ids m)), flat (vals c1 ++ vals c2)).
Proof.
  intros (H1 & H2 & D1 & D2 & K1 & K2 & Ci). destruct (packed_some _ H1 D1) as [x1 E1]. destruct (packed_some _ H2 D2) as [x2 E2].
  destruct (u_coords (e_2D m)) as [c1|] eqn:F1; [|done]. destruct (u_coords (e_1D m)) as [c2|] eqn:F2; [|done].
  exists x1, x2, c1, c2. split_and!; try done. unfold emesh_serialize. rewrite !umesh_serialize_ok by done. bok. bok. rewrite E1, E2, F1, F2. done.
Qed.
Lemma emesh_pickle_ok {D} (zero : D) (m : emesh D) : emesh_ok m -> emesh_pickle zero m = Ok (emesh_rebuilt zero m).
Proof.
  intros H. destruct (emesh_serialize_ok m H) as (x1 & x2 & c1 & c2 & P1 & P2 & F1 & F2 & E). unfold emesh_pickle. rewrite emesh_tiny_ok by done. bok. rewrite E. bok.
  by apply (emesh_unser_ok zero m _ _ x1 x2 c1 c2).
Qed.
Lemma emesh_transmit_ok {D} (zero : D) (m : emesh D) : emesh_ok m -> emesh_transmit zero m = Ok (emesh_rebuilt zero m).
Proof.
  intros H. destruct (emesh_serialize_ok m H) as (x1 & x2 & c1 & c2 & P1 & P2 & F1 & F2 & E). unfold emesh_transmit. rewrite emesh_tiny_ok by done. bok.
  pose proof (zlen_nonneg x1). pose proof (zlen_nonneg x2). pose proof (zlen_nonneg (vals (e_ids m))). pose proof (zlen_nonneg (vals c1)). pose proof (zlen_nonneg (vals c2)).
  pose proof H as (Q1 & Q2 & _).
  assert (R : @emesh_resize D (uI (e_2D m) ++ uI (e_1D m) ++ [e_cell m; zlen (uI (e_2D m)); nElems (e_ids m)]) newArr newArr =
    Ok (Arr "" [""] (Some (malloc Z (zlen (x1 ++ x2 ++ vals (e_ids m))))), Arr "" [""] (Some (malloc D (zlen (vals c1 ++ vals c2)))))).
  { unfold emesh_resize. cbv zeta. remember (uI (e_2D m)) as I1 eqn:EI1. remember (uI (e_1D m)) as I2 eqn:EI2.
    rewrite (rd_at _ (I1 ++ I2 ++ [e_cell m]) (zlen I1) [nElems (e_ids m)]) by (rewrite <- ?app_assoc, ?zlen_app; try done; unfold zlen; cbn [length]; lia). bok.
    rewrite (subv_mid _ [] I1 (I2 ++ [e_cell m; zlen I1; nElems (e_ids m)])) by done. bok.
    rewrite (subv_mid _ I1 I2 [e_cell m; zlen I1; nElems (e_ids m)]) by (rewrite ?zlen_app; try done; unfold zlen; cbn [length]; lia). bok.
    rewrite (rd_at _ (I1 ++ I2 ++ [e_cell m; zlen I1]) (nElems (e_ids m)) []) by (rewrite <- ?app_assoc, ?zlen_app; try done; unfold zlen; cbn [length]; lia).
    subst I1 I2. rewrite umesh_resize_ok by done. bok. rewrite umesh_resize_ok by done. bok. bok.
    rewrite (u1_len _ x1), (u1_len _ x2) by done. unfold u2. rewrite F1, F2, !shell_len. fold (nElems c1) (nElems c2). unfold nElems.
    rewrite alloc_new by (done || lia). bok. rewrite alloc_new by (done || lia). bok. rewrite !Z.mul_1_l, !zlen_app, !Z.add_assoc. done. }
  rewrite R. bok. rewrite E. bok. unfold recv at 1. rewrite copy_full' by done. bok. unfold recv. rewrite copy_full' by done. bok.
  by apply (emesh_unser_ok zero m _ _ x1 x2 c1 c2).
Qed.

(** ** What is not given back. *)
Lemma resize_none {V} (a : arr V) : resizeFor [] a = UB.
Proof. done. Qed.
Lemma sgt_no_coords {D} (m : sgt D) : s_coords m = None -> sgt_pickle m = UB.
Proof.
  destruct m as [[nm ds un ti it od] ty cc cn]. cbn [s_coords]. intros ->. unfold sgt_pickle, sgt_tiny, sgt_serialize, sgt_unserialize. cbn [optS optI s_head s_type s_coords s_conn h_time h_it h_ord h_name h_desc h_unit app]. cbv zeta.
  do 11 rdl. set (z := [ty; it; od; zlen (@nil string); zlen (optS cn); zlen (@nil Z); zlen (optI cn)]).
  match goal with |- context [subv ?l _ _] => rewrite (subv_mid l z [] (optI cn)) by done end. bok. done.
Qed.
Lemma dgt_no_coords {D} (m : dgt D) : d_coords m = None -> dgt_pickle m = UB.
Proof.
  destruct m as [[nm ds un ti it od] ty cc cn ci]. cbn [d_coords]. intros ->. unfold dgt_pickle, dgt_tiny, dgt_serialize, dgt_unserialize. cbn [optS optI d_head d_type d_coords d_conn d_index h_time h_it h_ord h_name h_desc h_unit app]. cbv zeta.
  do 13 rdl. match goal with |- context [subv (?a :: ?b :: ?x :: ?d :: ?e :: ?f :: ?g :: ?h :: ?i :: ?l) _ _] => rewrite (subv_mid (a :: b :: x :: d :: e :: f :: g :: h :: i :: l) [a; b; x; d; e; f; g; h; i] [] l) by done end. bok. done.
Qed.
Lemma clm_no_coords {D} (m : clm D) : l_coords m = None -> clm_transmit m = UB /\ clm_pickle m = Ok m.
Proof.
  intros E. split; [|by apply clm_pickle_ok; unfold clm_ok; rewrite E]. unfold clm_transmit, clm_tiny. rewrite E. cbn [optI app]. rewrite app_nil_r. unfold clm_resize. rdl. pose proof (zlen_nonneg (l_struct m)).
  rewrite alloc_new by (done || lia). bok. match goal with |- context [subv (?a :: ?b :: ?x :: ?l) _ _] => rewrite (subv_mid (a :: b :: x :: l) (a :: b :: x :: l) [] []) by (rewrite ?app_nil_r, ?zlen_cons, ?zlen_nil; done || lia) end. bok. done.
Qed.
Lemma dgt_mixed {D} (m : dgt D) n i : dgt_ok m -> d_conn m = Some n -> d_index m = Some i -> nComp n <> nComp i -> dgt_transmit m = Throw.
Proof.
  intros (c & n' & ix & Ec & En & Ei & Hc & Hn & Hi) E1 E2 N. rewrite E1 in En. rewrite E2 in Ei. injection En as <-. injection Ei as <-.
  unfold dgt_transmit, dgt_tiny. rewrite Ec, E1, E2. unfold dgt_resize. cbn [optI app]. do 3 rdl.
    remember (tinyI c) as I2 eqn:EI2. remember (tinyI n) as I3 eqn:EI3. remember (tinyI i) as I4 eqn:EI4.
    match goal with |- context [subv (?a :: ?b :: ?x :: ?d :: ?e :: ?f :: ?g :: ?h :: ?i :: I2 ++ I3 ++ I4)] => set (z9 := [a; b; x; d; e; f; g; h; i]) end.
    rewrite (subv_mid _ z9 I2 (I3 ++ I4)) by done. bok.
    rewrite (subv_mid _ (z9 ++ I2) I3 I4) by (rewrite ?app_nil_r, ?zlen_app, <- ?app_assoc; done). bok.
    rewrite (subv_mid _ (z9 ++ I2 ++ I3) I4 []) by (rewrite ?app_nil_r, ?zlen_app, <- ?app_assoc, ?Z.add_assoc; done). bok.
    subst I2 I3 I4. rewrite resize_shell by done. bok. rewrite resize_shell by done. bok.
    unfold aggregate2. rewrite !shell_comp by done. replace (negb (nComp i =? nComp n)) with true by lia. done.
Qed.
Lemma kept_int {V} (a b : arr V) : a_mem a = None -> transmitIntTo a b = Ok (setName (a_name a) b).
Proof.
  intros E. unfold transmitIntTo, tinyI, tinyS, isAlloc. rewrite E. unfold resizeFor. do 2 rdl. change (negb (-1 =? -1) || negb (-1 =? -1)) with false. cbv iota. bok. bok. unfold finishInt. rdl. destruct (isAlloc _); [|done]. rdl. done.
Qed.
Lemma kept_dbl {V} (a b : arr V) : a_mem a = None -> isAlloc b = true -> a_info b <> [] -> transmitDblTo a b = UB.
Proof.
  intros E A I. unfold transmitDblTo, tinyI, tinyS, isAlloc. rewrite E. unfold resizeFor. do 2 rdl. change (negb (-1 =? -1) || negb (-1 =? -1)) with false. cbv iota. bok. bok. unfold finishDbl. rdl.
  change (isAlloc (setName (a_name a) b)) with (isAlloc b). rewrite A. unfold finishWith. change (nComp (setName (a_name a) b)) with (nComp b). pose proof (nComp_pos b I). rewrite forZ_step by lia. done.
Qed.
Lemma cmesh_same {D} (m : cmesh D) : cmesh_rebuilt m = m <-> forall a, Some a ∈ c_axes m -> a_name a = "".
Proof.
  destruct m as [h ax]. unfold cmesh_rebuilt. cbn [c_head c_axes]. split.
  - intros E0 a Ha. assert (E : map (option_map unnamed) ax = ax) by congruence. clear E0. induction ax as [|o ax IH]; [by apply elem_of_nil in Ha|].
    cbn [map] in E. assert (E1 : option_map unnamed o = o) by congruence. assert (E2 : map (option_map unnamed) ax = ax) by congruence.
    apply elem_of_cons in Ha as [<-|Ha]; [|by apply IH]. cbn in E1. assert (E3 : unnamed a = a) by congruence. rewrite <- E3. done.
  - intros H. f_equal. induction ax as [|o ax IH]; [done|]. cbn [map]. rewrite IH by (intros a Ha; apply H; by apply elem_of_list_further). f_equal.
    destruct o as [[nm i mm]|]; [|done]. cbn. unfold unnamed. cbn. f_equal. f_equal. symmetry. apply (H (Arr nm i mm)), elem_of_list_here.
Qed.
Lemma blank_same {V} (a : arr V) : column a -> blank a = a <-> a_name a = "" /\ a_info a = [""].
Proof. intros _. destruct a as [nm i mm]. unfold blank. cbn. split; [intros [= <- <-]; done|intros [-> ->]; done]. Qed.
Lemma umesh_same {D} (m : umesh D) : umesh_ok m -> umesh_rebuilt m = m <->
  (forall c, u_conn m = Some c \/ u_index m = Some c -> a_name c = "" /\ a_info c = [""]).
Proof.
  intros (_ & _ & H). destruct m as [h d ty co cn ix]. unfold umesh_rebuilt. cbn [u_head u_dim u_types u_coords u_conn u_index] in *. destruct cn as [c|], ix as [i|]; try done; cbn.
  - destruct H as (_ & C1 & C2 & _). split.
    + intros [= E1 E2] x [[= <-]|[= <-]]; by apply blank_same.
    + intros K. rewrite (proj2 (blank_same c C1)) by (apply K; by left). rewrite (proj2 (blank_same i C2)) by (apply K; by right). done.
  - split; [|done]. intros _ c [?|?]; done.
Qed.

(** ** Examples. *)
Definition xyz : arr Z := Arr "xyz" ["X [m]"; "Y [m]"] (Some [Some 1; Some 2; None; Some 4; Some 5; Some 6]).
Definition hd0 : head Z := Head "mesh" "descr" "s" 7 3 (-1).
Definition seg : arr Z := Arr "" [""] (Some [Some 0; Some 1; Some 1; Some 2]).
Definition segI : arr Z := Arr "" [""] (Some [Some 0; Some 2; Some 4]).
(** Two segments (type 1) and a point (type 0). *)
Definition um : umesh Z := UMesh hd0 1 [0; 1] (Some xyz) (Some (Arr "" [""] (Some [Some 1; Some 0; Some 1; Some 1; Some 1; Some 2; Some 0; Some 2]))) (Some (Arr "" [""] (Some [Some 0; Some 3; Some 6; Some 8]))).
Lemma um_ok : umesh_ok um.
Proof.
  split; [done|]. split; [split; [by exists 3|done]|]. split; [done|]. split; [by do 2 eexists|]. split; [by do 2 eexists|]. split; [apply increasing_SS; repeat constructor; lia|]. split.
  - change (zlen (vals _) - 1) with 3. intros i Hi. assert (i = 0 \/ i = 1 \/ i = 2) as [->|[->| ->]] by lia; do 2 eexists; split; reflexivity.
  - intros t. change (zlen (vals _) - 1) with 3. split.
    + intros Ht. apply elem_of_cons in Ht as [->|Ht]; [by exists 2, 6|]. apply elem_of_cons in Ht as [->|Ht]; [by exists 0, 0|]. by apply elem_of_nil in Ht.
    + intros (i & p & Hi & E1 & E2). assert (i = 0 \/ i = 1 \/ i = 2) as [->|[->| ->]] by lia; vm_compute in E1; injection E1 as <-; vm_compute in E2; injection E2 as <-; set_solver.
Qed.
Lemma um_ext : emesh_ok (EMesh hd0 um um segI 2).
Proof. split; [exact um_ok|]. split; [exact um_ok|]. split; [done|]. split; [done|]. split; [done|]. split; [done|]. by do 2 eexists. Qed.
Definition cm : cmesh Z := CMesh hd0 [Some (Arr "x" ["X"] (Some [Some 1; Some 2])); Some (Arr "" ["Y"] (Some [Some 4])); None].
Lemma cm_ok : cmesh_ok cm.
Proof.
  split; [done|]. intros a Ha. apply elem_of_cons in Ha as [[= ->]|Ha]; [by do 2 eexists|].
  apply elem_of_cons in Ha as [[= ->]|Ha]; [by do 2 eexists|]. apply elem_of_cons in Ha as [?|Ha]; [done|]. by apply elem_of_nil in Ha.
Qed.
Lemma axis_lost : exists m m' : cmesh Z, cmesh_ok m /\ cmesh_transmit m = Ok m' /\ m' <> m.
Proof. exists cm. eexists. split; [exact cm_ok|]. split; [vm_compute; reflexivity|done]. Qed.
Definition um' : umesh Z := UMesh hd0 1 [0; 1] (Some xyz) (Some (Arr "conn" [""] (Some [Some 1; Some 0; Some 1; Some 1; Some 1; Some 2; Some 0; Some 2]))) (Some (Arr "" [""] (Some [Some 0; Some 3; Some 6; Some 8]))).
Lemma name_lost : exists m m' : umesh Z, umesh_ok m /\ umesh_transmit m = Ok m' /\ m' <> m.
Proof.
  exists um'. eexists. split; [|split; [vm_compute; reflexivity|done]]. destruct um_ok as (H1 & H2 & H3 & _ & H5 & H6). split; [done|]. split; [done|]. split; [done|]. split; [by do 2 eexists|]. split; [done|]. exact H6.
Qed.
Lemma shifted : exists m m' : umesh Z, u_coords m = Some (Arr "n" [] (Some [])) /\ h_unit (u_head m) = "s" /\
  umesh_transmit m = Ok m' /\ u_coords m' = None /\ h_unit (u_head m') = "n".
Proof. exists (UMesh hd0 (-1) [] (Some (Arr "n" [] (Some []))) None None). eexists. split; [done|]. split; [done|]. split; [vm_compute; reflexivity|done]. Qed.
Lemma time_lost : exists m m' : emesh Z, emesh_ok m /\ emesh_transmit 0 m = Ok m' /\
  h_time (e_head m) = 7 /\ h_time (e_head m') = 0 /\ h_it (e_head m) = 3 /\ h_it (e_head m') = -1 /\ h_unit (e_head m) = "s" /\ h_unit (e_head m') = "" /\ h_time (u_head (e_2D m)) = 7 /\ h_time (u_head (e_2D m')) = 0.
Proof. exists (EMesh hd0 um um segI 2). eexists. split; [exact um_ext|]. split; [vm_compute; reflexivity|]. repeat split. Qed.
