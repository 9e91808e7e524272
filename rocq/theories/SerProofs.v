From stdpp Require Import strings.
From Coq Require Import ZifyBool ZifyNat.
From Verif Require Import Base StdModel SearchSpec StdProofs SerModel SerSpec.
Local Open Scope string_scope.
Local Open Scope Z_scope.
Local Open Scope list_scope.

Lemma bind_Ok {A B} (x : A) (f : A -> res B) : bind (Ok x) f = f x.
Proof. done. Qed.
Ltac bok := rewrite bind_Ok; cbv beta iota.
Lemma subv_mid {T} (l a b c : list T) p q : l = a ++ b ++ c -> p = zlen a -> q = p + zlen b -> subv l p q = Ok b.
Proof.
  intros -> -> ->. unfold subv. rewrite !zlen_app. pose proof (zlen_nonneg a). pose proof (zlen_nonneg b). pose proof (zlen_nonneg c).
  replace (_ || _ || _) with false by lia. unfold ubif. f_equal.
  replace (zlen a + zlen b - zlen a) with (zlen b) by lia. unfold zlen. rewrite !Nat2Z.id. rewrite drop_app, take_app. done.
Qed.
Lemma rd_mid {T} (l a : list T) x c p : l = a ++ x :: c -> p = zlen a -> rd l p = Ok x.
Proof. intros -> ->. apply rd_ok. rewrite zlook_app_r by lia. rewrite Z.sub_diag. done. Qed.
Lemma copy_full {V} (src l : list (option V)) n i : zlen src = zlen l -> copyTo src 0 (Arr n i (Some l)) = Ok (Arr n i (Some src)).
Proof.
  intros H. unfold copyTo, nElems, vals; cbn [a_mem a_name a_info]. replace (_ || _) with false by lia. unfold ubif. do 3 f_equal.
  replace (Z.to_nat (0 + zlen src)) with (length l) by (unfold zlen in *; lia). rewrite drop_all, app_nil_r. done.
Qed.
Lemma copy_none {V} n i : @copyTo V [] 0 (Arr n i None) = Ok (Arr n i None).
Proof. done. Qed.

Lemma resizeS_nil n : 0 <= n -> resizeS n [] = replicate (Z.to_nat n) "".
Proof. intros H. unfold resizeS. rewrite take_nil. simpl. f_equal. lia. Qed.

(** What resizeForUnserialization makes of a new array, and what is left once the values are there. *)
Definition shell {V} (a : arr V) : arr V := if isAlloc a then Arr "" (replicate (length (a_info a)) "") (Some (malloc V (nElems a))) else newArr.
Definition filled {V} (a : arr V) : arr V := if isAlloc a then Arr "" (replicate (length (a_info a)) "") (a_mem a) else newArr.
Lemma arr_ok_mul {V} (a : arr V) : arr_ok a -> nElems a = nComp a * nTuples a /\ 0 <= nTuples a /\ 0 <= nComp a.
Proof.
  unfold arr_ok, nElems, nComp, nTuples, nElems, vals, nComp. destruct (a_mem a) as [l|].
  - intros (n & Hn & E). pose proof (zlen_nonneg (a_info a)). destruct (Z.eqb_spec (zlen (a_info a)) 0) as [E0|E0]; [lia|].
    rewrite E, Z.quot_mul by lia. lia.
  - intros ->. done.
Qed.
Lemma resize_shell {V} (a : arr V) : arr_ok a -> resizeFor (tinyI a) (@newArr V) = Ok (shell a, isAlloc a).
Proof.
  intros H. pose proof (arr_ok_mul a H) as (E & H1 & H2). unfold resizeFor, tinyI, shell. destruct (isAlloc a) eqn:Ea; [|done].
  change (rd [nTuples a; nComp a] 0) with (Ok (nTuples a)). change (rd [nTuples a; nComp a] 1) with (Ok (nComp a)). cbn [bind].
  replace (negb _ || negb _) with true by lia. unfold allocA, newArr; cbn [a_name a_info]. replace (_ || _) with false by lia. unfold ubif. cbn [bind].
  rewrite resizeS_nil by done. rewrite <- E. unfold nComp, zlen. rewrite Nat2Z.id. done.
Qed.
Lemma shell_len {V} (a : arr V) : nElems (shell a) = nElems a.
Proof.
  unfold shell. unfold isAlloc. destruct (a_mem a) eqn:E; unfold nElems, vals; [|rewrite E; done]. cbn [a_mem]. rewrite E. unfold malloc, zlen. rewrite replicate_length. lia.
Qed.
Lemma copy_shell {V} (a : arr V) : copyTo (vals a) 0 (shell a) = Ok (filled a).
Proof.
  pose proof (shell_len a) as L. unfold shell, filled in *. unfold isAlloc in *. destruct (a_mem a) eqn:E; [|unfold vals; rewrite E; done].
  rewrite copy_full; [unfold vals; rewrite E; reflexivity|]. unfold nElems in *. symmetry. exact L.
Qed.
Lemma filled_vals {V} (a : arr V) : vals (filled a) = vals a.
Proof. unfold filled, isAlloc. destruct (a_mem a) eqn:E; unfold vals; rewrite ?E; done. Qed.
Lemma filled_len {V} (a : arr V) : nElems (filled a) = nElems a.
Proof. unfold nElems. rewrite filled_vals. done. Qed.
Lemma infos_ok {V} (pre info info0 : list string) k n nm (mem : option (list (option V))) :
  zlen pre = k -> zlen info = n -> length info0 = length info ->
  forZ 0 n (fun i a => let* s := rd (pre ++ info) (i + k) in setInfo i s a) (Arr nm info0 mem) = Ok (Arr nm info mem).
Proof.
  intros Hk Hn Hl. apply wp_ok_eq.
  eapply (wp_forZ (fun i a => a = Arr nm (take (Z.to_nat i) info ++ drop (Z.to_nat i) info0) mem)).
  - subst n. apply zlen_nonneg.
  - simpl. done.
  - intros i a Hi ->. destruct (zlook_lt info i) as [s Hs]; [lia|].
    rewrite (rd_ok _ _ s) by (rewrite zlook_app_r by lia; replace (i + k - zlen pre) with i by lia; done). cbn [bind]. unfold setInfo. cbn [a_name a_info a_mem].
    assert (Hlen : length (take (Z.to_nat i) info ++ drop (Z.to_nat i) info0) = length info) by (rewrite app_length, take_length, drop_length; unfold zlen in *; lia).
    apply wp_ifthrow; [unfold nComp, zlen in *; cbn [a_info]; rewrite Hlen; lia|intros _]. cbn. f_equal.
    apply zlook_ext. intros j. rewrite zlook_zset by (unfold zlen in *; rewrite Hlen; lia).
    replace (Z.to_nat (i + 1)) with (S (Z.to_nat i)) by lia.
    erewrite take_S_r by (rewrite <- zlook_to_nat by lia; exact Hs). rewrite <- app_assoc. rewrite !zlook_app. unfold zlen in *. rewrite take_length.
    destruct (Z.eqb_spec j i) as [->|Hj].
    + destruct (Z.ltb_spec i (Z.of_nat (Z.to_nat i `min` length info))); [lia|]. replace (i - _) with 0 by lia. done.
    + destruct (Z.ltb_spec j (Z.of_nat (Z.to_nat i `min` length info))) as [|G]; [done|].
      simpl length. replace (j - _ <? Z.of_nat 1) with false by lia. rewrite !zlook_drop by lia. f_equal. lia.
  - intros a ->. subst n. unfold zlen. rewrite Nat2Z.id, take_ge by done. rewrite drop_ge by lia. rewrite app_nil_r. done.
Qed.

Lemma finishWith_ok {V} nm info info0 n (mem : option (list (option V))) : zlen info = n -> length info0 = length info ->
  finishWith n (nm :: info) (Arr nm info0 mem) = Ok (Arr nm info mem).
Proof. intros H1 H2. unfold finishWith. apply (infos_ok [nm] info info0 1 n nm mem); done. Qed.
Lemma finishDbl_ok {V} (a : arr V) : arr_ok a -> finishDbl (tinyS a) (filled a) = Ok a.
Proof.
  intros H. unfold finishDbl, tinyS, filled, isAlloc, arr_ok in *. destruct a as [nm info [l|]]; cbn [a_mem a_name a_info] in *.
  - change (rd (nm :: info) 0) with (Ok nm). cbn [bind]. unfold setName; cbn [a_mem a_info].
    apply finishWith_ok; [|apply replicate_length]. unfold nComp, zlen; cbn [a_info]. rewrite replicate_length. done.
  - subst info. done.
Qed.
Lemma finishInt_ok {V} (a : arr V) : arr_ok a -> finishInt (tinyI a) (tinyS a) (filled a) = Ok a.
Proof.
  intros H. unfold finishInt, tinyS, tinyI, filled, isAlloc, arr_ok in *. destruct a as [nm info [l|]]; cbn [a_mem a_name a_info] in *.
  - change (rd (nm :: info) 0) with (Ok nm). cbn [bind]. unfold setName; cbn [a_mem a_info].
    match goal with |- context [rd [?x; ?y] 1] => change (rd [x; y] 1) with (Ok y) end. cbn [bind].
    apply finishWith_ok; [done|apply replicate_length].
  - subst info. done.
Qed.
Lemma recv_shell {V} (a : arr V) : arr_ok a -> (if isAlloc a then recv (vals a) (shell a) else Ok (shell a)) = Ok (filled a).
Proof.
  intros H. pose proof (copy_shell a) as C. destruct (isAlloc a) eqn:E; [exact C|]. unfold shell, filled. rewrite E. done.
Qed.
Lemma transmitInt_ok {V} (a : arr V) : arr_ok a -> transmitInt a = Ok a.
Proof. intros H. unfold transmitInt, transmitIntTo. rewrite resize_shell by done. cbn [bind]. rewrite recv_shell by done. cbn [bind]. apply finishInt_ok. done. Qed.
Lemma transmitDbl_ok {V} (a : arr V) : arr_ok a -> transmitDbl a = Ok a.
Proof. intros H. unfold transmitDbl, transmitDblTo. rewrite resize_shell by done. cbn [bind]. rewrite recv_shell by done. cbn [bind]. apply finishDbl_ok. done. Qed.

Ltac rdl := match goal with |- context [rd ?l ?i] => erewrite (rd_ok l i) by reflexivity end; bok.
Ltac sub_at a b c := match goal with |- context [subv ?l ?p ?q] => rewrite (subv_mid l a b c p q) by (try done; unfold zlen; rewrite ?app_length; cbn [length]; lia) end; bok.

(** The values are all that unserialization takes from the arrays. *)
Lemma sgt_unser_ok {D} (m : sgt D) c n (a1 : arr Z) (a2 : arr D) : s_coords m = Some c -> s_conn m = Some n -> arr_ok c -> arr_ok n ->
  vals a1 = vals n -> vals a2 = vals c ->
  let '(tD, tI, tS) := sgt_tiny m in sgt_unserialize tD tI a1 a2 tS = Ok m.
Proof.
  intros Ec En Hc Hn E1 E2. destruct m as [[nm ds un ti it od] ty cc nn]; cbn in Ec, En; subst cc nn. unfold sgt_tiny; cbn [s_head s_type s_coords s_conn h_name h_desc h_unit h_time h_it h_ord optS optI].
  unfold sgt_unserialize.
  remember (tinyI c) as I2 eqn:EI2. remember (tinyI n) as I3 eqn:EI3. remember (tinyS c) as S2 eqn:ES2. remember (tinyS n) as S3 eqn:ES3.
  do 11 rdl.
  set (z7 := [ty; it; od; zlen S2; zlen S3; zlen I2; zlen I3]).
  rewrite (subv_mid _ z7 I2 I3) by done. bok. subst I2. rewrite resize_shell by done. bok. rewrite E2, copy_shell. bok.
  rewrite (subv_mid _ (z7 ++ tinyI c) I3 []) by (rewrite ?app_nil_r, ?zlen_app, <- ?app_assoc; done). bok.
  subst I3. rewrite resize_shell by done. bok. rewrite E1, copy_shell. bok.
  rewrite (subv_mid _ [nm; ds; un] S2 S3) by done. bok. subst S2. rewrite finishDbl_ok by done. bok.
  rewrite (subv_mid _ ([nm; ds; un] ++ tinyS c) S3 []) by (rewrite ?app_nil_r, ?zlen_app, <- ?app_assoc; done). bok.
  subst S3. rewrite finishInt_ok by done. bok. done.
Qed.
Lemma sgt_pickle_ok {D} (m : sgt D) : sgt_ok m -> sgt_pickle m = Ok m.
Proof.
  intros (c & n & Ec & En & Hc & Hn). unfold sgt_pickle. pose proof (sgt_unser_ok m c n) as U. destruct (sgt_tiny m) as [[tD tI] tS].
  unfold sgt_serialize. rewrite Ec, En. apply U; done.
Qed.
(** recv on the array prepared by resizeForUnserialization leaves the values of the sender. *)
Lemma recv_flat {V} (a : arr V) : exists b, recv (vals (flat (vals a))) (shell a) = Ok b /\ vals b = vals a.
Proof. exists (filled a). unfold recv. change (vals (flat (vals a))) with (vals a). rewrite copy_shell, filled_vals. done. Qed.
Lemma sgt_transmit_ok {D} (m : sgt D) : sgt_ok m -> sgt_transmit m = Ok m.
Proof.
  intros (c & n & Ec & En & Hc & Hn). unfold sgt_transmit. pose proof (sgt_unser_ok m c n) as U.
  destruct (sgt_tiny m) as [[tD tI] tS] eqn:Et. 
  assert (R : sgt_resize tI newArr newArr = Ok (shell n, shell c)).
  { unfold sgt_tiny in Et. rewrite Ec, En in Et. injection Et as _ <- _. unfold sgt_resize. cbn [optI]. do 2 rdl.
    remember (tinyI c) as I2 eqn:EI2. remember (tinyI n) as I3 eqn:EI3.
    match goal with |- context [subv (?a :: ?b :: ?x :: ?d :: ?e :: ?f :: ?g :: I2 ++ I3)] => set (z7 := [a; b; x; d; e; f; g]) end.
    rewrite (subv_mid _ z7 I2 I3) by done. bok.
    rewrite (subv_mid _ (z7 ++ I2) I3 []) by (rewrite ?app_nil_r, ?zlen_app, <- ?app_assoc; done). bok.
    subst I2 I3. rewrite !resize_shell by done. done. }
  rewrite R. bok. unfold sgt_serialize. rewrite Ec, En. cbn [optV].
  destruct (recv_flat n) as (b1 & -> & E1). bok. destruct (recv_flat c) as (b2 & -> & E2). bok. apply U; done.
Qed.

(** ** Two arrays of integers sent one behind the other. *)
Lemma dgt_unser_ok {D} (m : dgt D) c n ix (a1 : arr Z) (a2 : arr D) : d_coords m = Some c -> d_conn m = Some n -> d_index m = Some ix -> arr_ok c -> arr_ok n -> arr_ok ix ->
  vals a1 = vals n ++ vals ix -> vals a2 = vals c ->
  let '(tD, tI, tS) := dgt_tiny m in dgt_unserialize tD tI a1 a2 tS = Ok m.
Proof.
  intros Ec En Ei Hc Hn Hi E1 E2. destruct m as [[nm ds un ti it od] ty cc nn ii]; cbn in Ec, En, Ei; subst cc nn ii.
  unfold dgt_tiny; cbn [d_head d_type d_coords d_conn d_index h_name h_desc h_unit h_time h_it h_ord optS optI].
  unfold dgt_unserialize.
  remember (tinyI c) as I2 eqn:EI2. remember (tinyI n) as I3 eqn:EI3. remember (tinyI ix) as I4 eqn:EI4.
  remember (tinyS c) as S2 eqn:ES2. remember (tinyS n) as S3 eqn:ES3. remember (tinyS ix) as S4 eqn:ES4.
  do 13 rdl.
  set (z9 := [ty; it; od; zlen S2; zlen S3; zlen S4; zlen I2; zlen I3; zlen I4]).
  rewrite (subv_mid _ z9 I2 (I3 ++ I4)) by done. bok. subst I2. rewrite resize_shell by done. bok. rewrite E2, copy_shell. bok.
  rewrite (subv_mid _ (z9 ++ tinyI c) I3 I4) by (rewrite ?app_nil_r, ?zlen_app, <- ?app_assoc; done). bok.
  subst I3. rewrite resize_shell by done. bok. rewrite shell_len.
  rewrite (subv_mid _ [] (vals n) (vals ix)) by done. bok. rewrite copy_shell. bok.
  rewrite (subv_mid _ (z9 ++ tinyI c ++ tinyI n) I4 []) by (rewrite ?app_nil_r, ?zlen_app, <- ?app_assoc, ?Z.add_assoc; done). bok.
  subst I4. rewrite resize_shell by done. bok. rewrite filled_len.
  rewrite (subv_mid _ (vals n) (vals ix) []) by (rewrite ?app_nil_r; try done; unfold nElems; rewrite E1, zlen_app; done). bok. rewrite copy_shell. bok.
  rewrite (subv_mid _ [nm; ds; un] S2 (S3 ++ S4)) by done. bok. subst S2. rewrite finishDbl_ok by done. bok.
  rewrite (subv_mid _ ([nm; ds; un] ++ tinyS c) S3 S4) by (rewrite ?app_nil_r, ?zlen_app, <- ?app_assoc; done). bok.
  subst S3. rewrite finishInt_ok by done. bok.
  rewrite (subv_mid _ ([nm; ds; un] ++ tinyS c ++ tinyS n) S4 []) by (rewrite ?app_nil_r, ?zlen_app, <- ?app_assoc, ?Z.add_assoc; done). bok.
  subst S4. rewrite finishInt_ok by done. bok. done.
Qed.
Lemma dgt_pickle_ok {D} (m : dgt D) : dgt_ok m -> dgt_pickle m = Ok m.
Proof.
  intros (c & n & ix & Ec & En & Ei & Hc & Hn & Hi). unfold dgt_pickle. pose proof (dgt_unser_ok m c n ix) as U. destruct (dgt_tiny m) as [[tD tI] tS].
  unfold dgt_serialize. rewrite Ec, En, Ei. apply U; done.
Qed.
Lemma copyTo_len {V} (src : list (option V)) d (a : arr V) : 0 <= d -> d + zlen src <= nElems a -> exists b, copyTo src d a = Ok b /\ nElems b = nElems a.
Proof.
  intros Hd Hl. unfold copyTo. replace (_ || _) with false by lia. unfold ubif. destruct a as [nm info [l|]]; cbn [a_mem a_name a_info]; eexists; (split; [reflexivity|]); [|done].
  unfold nElems, vals in *; cbn [a_mem] in *. pose proof (zlen_nonneg src). unfold zlen in *. rewrite !app_length, take_length, drop_length. lia.
Qed.
Lemma alloc_new {V} nt nc (b : arr V) : 0 <= nt -> 0 <= nc -> a_info b = [] -> allocA nt nc b = Ok (Arr (a_name b) (replicate (Z.to_nat nc) "") (Some (malloc V (nc * nt)))).
Proof. intros H1 H2 H3. unfold allocA. replace (_ || _) with false by lia. unfold ubif. rewrite H3, resizeS_nil by done. done. Qed.
Lemma nElems_malloc {V} nm info n : 0 <= n -> nElems (Arr nm info (Some (malloc V n))) = n.
Proof. intros H. unfold nElems, vals, malloc, zlen; cbn [a_mem]. rewrite replicate_length. lia. Qed.
Lemma aggregate_len {V} (p q : arr V) : arr_ok p -> arr_ok q -> nComp q = nComp p -> exists r, aggregate2 p q = Ok r /\ nElems r = nElems p + nElems q.
Proof.
  intros Hp Hq E. pose proof (arr_ok_mul p Hp) as (E1 & P1 & P2). pose proof (arr_ok_mul q Hq) as (E2 & Q1 & Q2). unfold aggregate2.
  rewrite E, Z.eqb_refl. cbn [negb]. unfold ifthrow. rewrite alloc_new by (done || lia). bok.
  match goal with |- context [copyTo (vals p) 0 ?a] => destruct (copyTo_len (vals p) 0 a) as (b & -> & L1) end; [done|..].
  { rewrite nElems_malloc by nia. fold (nElems p). nia. }
  bok. destruct (copyTo_len (vals q) (nElems p) b) as (r & -> & L2); [unfold nElems; apply zlen_nonneg|..].
  { rewrite L1, nElems_malloc by nia. fold (nElems q). nia. }
  exists r. split; [done|]. rewrite L2, L1, nElems_malloc by nia. nia.
Qed.
Lemma shell_ok {V} (a : arr V) : arr_ok a -> arr_ok (shell a).
Proof.
  intros H. pose proof (arr_ok_mul a H) as (E & P1 & P2). pose proof (shell_len a) as L. unfold shell, isAlloc in *. destruct (a_mem a); [|done].
  unfold arr_ok; cbn [a_mem a_info]. exists (nTuples a). split; [done|]. unfold nElems, vals in L; cbn [a_mem] in L. unfold nElems, vals. rewrite L. unfold nElems, vals in E. rewrite E.
  unfold nComp, zlen. rewrite replicate_length. lia.
Qed.
Lemma shell_comp {V} (a : arr V) : arr_ok a -> nComp (shell a) = nComp a.
Proof. unfold arr_ok, shell, isAlloc, nComp. destruct (a_mem a); cbn [a_info]; [unfold zlen; rewrite replicate_length; done|intros ->; done]. Qed.
Lemma dgt_transmit_ok {D} (m : dgt D) : dgt_ok m -> (forall n i, d_conn m = Some n -> d_index m = Some i -> nComp n = nComp i) -> dgt_transmit m = Ok m.
Proof.
  intros (c & n & ix & Ec & En & Ei & Hc & Hn & Hi) HC. specialize (HC _ _ En Ei). unfold dgt_transmit. pose proof (dgt_unser_ok m c n ix) as U.
  destruct (dgt_tiny m) as [[tD tI] tS] eqn:Et.
  assert (R : dgt_resize tI newArr newArr = Ok (Arr "" [""] (Some (malloc Z (nElems n + nElems ix))), shell c)).
  { unfold dgt_tiny in Et. rewrite Ec, En, Ei in Et. injection Et as _ <- _. unfold dgt_resize. cbn [optI]. do 3 rdl.
    remember (tinyI c) as I2 eqn:EI2. remember (tinyI n) as I3 eqn:EI3. remember (tinyI ix) as I4 eqn:EI4.
    match goal with |- context [subv (?a :: ?b :: ?x :: ?d :: ?e :: ?f :: ?g :: ?h :: ?i :: I2 ++ I3 ++ I4)] => set (z9 := [a; b; x; d; e; f; g; h; i]) end.
    rewrite (subv_mid _ z9 I2 (I3 ++ I4)) by done. bok.
    rewrite (subv_mid _ (z9 ++ I2) I3 I4) by (rewrite ?app_nil_r, ?zlen_app, <- ?app_assoc; done). bok.
    rewrite (subv_mid _ (z9 ++ I2 ++ I3) I4 []) by (rewrite ?app_nil_r, ?zlen_app, <- ?app_assoc, ?Z.add_assoc; done). bok.
    subst I2 I3 I4. rewrite resize_shell by done. bok. rewrite resize_shell by done. bok.
    destruct (aggregate_len (shell n) (shell ix)) as (r & -> & L); [by apply shell_ok|by apply shell_ok|by rewrite !shell_comp by done|]. bok.
    rewrite resize_shell by done. bok. rewrite L, !shell_len. pose proof (zlen_nonneg (vals n)). pose proof (zlen_nonneg (vals ix)).
    rewrite alloc_new by (done || unfold nElems; lia). bok. rewrite Z.mul_1_l. done. }
  rewrite R. bok. unfold dgt_serialize. rewrite Ec, En, Ei. cbn [optV].
  unfold recv. rewrite copy_full. 2:{ change (vals (flat (vals n ++ vals ix))) with (vals n ++ vals ix). rewrite zlen_app. unfold malloc, nElems, zlen. rewrite replicate_length. lia. }
  bok. destruct (recv_flat c) as (b2 & E & E2). unfold recv in E. rewrite E. bok. apply U; done.
Qed.

(** ** Curvilinear mesh. *)
Lemma rd_list_ok (pre l post : list Z) k : zlen pre = k ->
  forZ 0 (zlen l) (fun i st => let* x := rd (pre ++ l ++ post) (k + i) in Ok (st ++ [x])) [] = Ok l.
Proof.
  intros Hk. apply wp_ok_eq. eapply (wp_forZ (fun i st => st = take (Z.to_nat i) l)); [apply zlen_nonneg|done|..].
  - intros i st Hi ->. destruct (zlook_lt l i) as [x Hx]; [lia|].
    rewrite (rd_ok _ _ x) by (rewrite zlook_app_r by lia; replace (k + i - zlen pre) with i by lia; rewrite zlook_app_l by lia; done). bok. cbn [wp].
    replace (Z.to_nat (i + 1)) with (S (Z.to_nat i)) by lia. symmetry. apply take_S_r. rewrite <- zlook_to_nat by lia. done.
  - intros st ->. unfold zlen. rewrite Nat2Z.id. apply take_ge. done.
Qed.
Lemma tinyI_len {V} (a : arr V) : zlen (tinyI a) = 2.
Proof. unfold tinyI. destruct (isAlloc a); done. Qed.
Lemma clm_unser_ok {D} (m : clm D) (a1 : arr Z) (a2 : arr D) : clm_ok m -> vals a2 = optV (l_coords m) ->
  let '(tD, tI, tS) := clm_tiny m in clm_unserialize tD tI a1 a2 tS = Ok m.
Proof.
  intros Hc E2. destruct m as [[nm ds un ti it od] st cc]. unfold clm_ok, clm_tiny in *; cbn [l_head l_struct l_coords h_name h_desc h_unit h_time h_it h_ord] in *.
  unfold clm_unserialize. do 7 rdl. set (z3 := [it; od; zlen st]).
  change (it :: od :: zlen st :: st ++ optI cc) with (z3 ++ st ++ optI cc).
  rewrite (rd_list_ok z3 st (optI cc) 3) by done. bok. rewrite !zlen_app. change (zlen z3) with 3.
  destruct cc as [c|]; cbn [optI optS optV] in *.
  - rewrite tinyI_len. replace (zlen st + 3 <? 3 + (zlen st + 2)) with true by lia.
    remember (tinyI c) as I2 eqn:EI2. rewrite (subv_mid _ (z3 ++ st) I2 []) by (rewrite ?app_nil_r, ?zlen_app, <- ?app_assoc; subst I2; rewrite ?tinyI_len; try done; change (zlen z3) with 3; lia). bok.
    subst I2. rewrite resize_shell by done. bok. rewrite E2, copy_shell. bok.
    rewrite (subv_mid _ [nm; ds; un] (tinyS c) []) by (rewrite ?app_nil_r; done). bok. rewrite finishDbl_ok by done. bok. done.
  - change (zlen (@nil Z)) with 0. replace (zlen st + 3 <? 3 + (zlen st + 0)) with false by lia. bok. done.
Qed.
Lemma clm_pickle_ok {D} (m : clm D) : clm_ok m -> clm_pickle m = Ok m.
Proof. intros H. unfold clm_pickle. pose proof (clm_unser_ok m) as U. destruct (clm_tiny m) as [[tD tI] tS]. unfold clm_serialize. apply U; done. Qed.
Lemma clm_transmit_ok {D} (m : clm D) : clm_ok m -> l_coords m <> None -> clm_transmit m = Ok m.
Proof.
  intros H Hn. unfold clm_transmit. pose proof (clm_unser_ok m) as U. unfold clm_ok in H. destruct (l_coords m) as [c|] eqn:Ec; [|done].
  destruct (clm_tiny m) as [[tD tI] tS] eqn:Et. pose proof (zlen_nonneg (l_struct m)).
  assert (R : clm_resize tI newArr newArr = Ok (Arr "" [""] (Some (malloc Z (zlen (l_struct m)))), shell c)).
  { unfold clm_tiny in Et. rewrite Ec in Et. injection Et as _ <- _. unfold clm_resize. rdl. rewrite alloc_new by (done || lia). bok.
    remember (tinyI c) as I2 eqn:EI2. match goal with |- context [subv (?a :: ?b :: ?x :: _ ++ _)] => set (z3 := [a; b; x]) end.
    rewrite (subv_mid _ (z3 ++ l_struct m) (optI (Some c)) []) by (cbn [optI]; rewrite <- ?EI2, ?app_nil_r, ?zlen_app, <- ?app_assoc; try done; change (zlen z3) with 3;
      match goal with |- zlen (?a :: ?b :: ?x :: ?l) = _ => change (zlen (a :: b :: x :: l)) with (zlen (z3 ++ l)); rewrite !zlen_app; change (zlen z3) with 3; lia end). bok.
    cbn [optI]. subst I2. rewrite resize_shell by done. bok. rewrite Z.mul_1_l. done. }
  rewrite R. bok. unfold clm_serialize. rewrite Ec. cbn [optV]. unfold recv. rewrite copy_full. 2:{ unfold flat, vals, malloc, zlen; cbn [a_mem]. rewrite fmap_length, replicate_length. lia. }
  bok. destruct (recv_flat c) as (b2 & E & E2). unfold recv in E. rewrite E. bok. apply U; [unfold clm_ok; by rewrite Ec|done].
Qed.

(** ** Cartesian mesh. *)
Lemma column_tuples {V} (a : arr V) : column a -> nTuples a = zlen (vals a).
Proof. intros (s & l & E1 & E2). unfold nTuples, isAlloc, nComp, nElems, vals. rewrite E1, E2. change (zlen [s]) with 1. cbn. apply Z.quot_1_r. Qed.
Definition ax_i {D} (o : option (arr D)) : Z := match o with Some a => nTuples a | None => -1 end.
Definition ax_s {D} (o : option (arr D)) : string := match o with Some a => hd "" (a_info a) | None => "" end.
Definition axes_ok {D} (l : list (option (arr D))) : Prop := forall a, Some a ∈ l -> column a.
Lemma cmesh_tiny_ok {D} (m : cmesh D) : cmesh_ok m -> let h := c_head m in
  cmesh_tiny m = Ok ([h_time h], (ax_i <$> c_axes m) ++ [h_it h; h_ord h], [h_name h; h_desc h; h_unit h] ++ (ax_s <$> c_axes m)).
Proof.
  intros [_ H] h. unfold cmesh_tiny. fold h. match goal with |- context [foldM ?f _ _] => set (F := f) end.
  assert (A : forall l Is Ss, axes_ok l -> foldM F l (Is, Ss) = Ok (Is ++ (ax_i <$> l), Ss ++ (ax_s <$> l))).
  { induction l as [|o l IH]; intros Is Ss Hl; [cbn; by rewrite !app_nil_r|]. cbn [foldM]. destruct o as [a|].
    - destruct (Hl a) as (s & v & E1 & E2); [apply elem_of_list_here|]. unfold F at 1. unfold info0. rewrite E1. bok. bok. fold F.
      rewrite IH by (intros b Hb; apply Hl; by apply elem_of_list_further). rewrite <- !app_assoc. cbn. rewrite E1. done.
    - unfold F at 1. bok. rewrite IH by (intros b Hb; apply Hl; by apply elem_of_list_further). rewrite <- !app_assoc. done. }
  rewrite A by done. bok. done.
Qed.
Lemma subv_all {T} (l : list T) n : n = zlen l -> subv l 0 n = Ok l.
Proof. intros ->. apply (subv_mid _ [] l []); [by rewrite app_nil_r|done|done]. Qed.
Lemma cmesh_serialize_ok {D} (m : cmesh D) : cmesh_ok m -> cmesh_serialize m = Ok (flat [], flat (concat (optV <$> c_axes m))).
Proof.
  intros [_ H]. unfold cmesh_serialize. match goal with |- context [foldM ?f _ _] => set (F := f) end.
  assert (A : forall l v, axes_ok l -> foldM F l v = Ok (v ++ concat (optV <$> l))).
  { induction l as [|o l IH]; intros v Hl; [cbn; by rewrite !app_nil_r|]. cbn [foldM]. destruct o as [a|].
    - unfold F at 1. rewrite subv_all by (apply column_tuples, Hl, elem_of_list_here). bok. bok. fold F.
      rewrite IH by (intros b Hb; apply Hl; by apply elem_of_list_further). rewrite <- !app_assoc. done.
    - unfold F at 1. bok. rewrite IH by (intros b Hb; apply Hl; by apply elem_of_list_further). done. }
  rewrite A by done. bok. done.
Qed.
Lemma ax_size {D} (o : option (arr D)) : (forall a, o = Some a -> column a) -> zlen (optV o) = (if ax_i o =? -1 then 0 else ax_i o).
Proof.
  intros H. destruct o as [a|]; [|done]. cbn [ax_i optV]. rewrite (column_tuples a) by (by apply H). pose proof (zlen_nonneg (vals a)).
  replace (zlen (vals a) =? -1) with false by lia. done.
Qed.
Definition cmesh_step {D} (tI : list Z) (a2 : arr D) (tS : list string) (i : Z) '((axes, pos) : list (option (arr D)) * Z) : res (list (option (arr D)) * Z) :=
    let* n := rd tI i in
    if n =? -1 then Ok (axes ++ [None], pos) else
    let* a := allocA n 1 newArr in
    let* s := rd tS (i + 3) in
    let* a := setInfo 0 s a in
    let* v := subv (vals a2) pos (pos + n) in
    let* a := copyTo v 0 a in
    Ok (axes ++ [Some a], pos + n).
Lemma copy_full' {V} (src : list (option V)) nm info n : zlen src = n -> copyTo src 0 (Arr nm info (Some (malloc V n))) = Ok (Arr nm info (Some src)).
Proof. intros H. rewrite copy_full; [done|]. unfold malloc, zlen. rewrite replicate_length. pose proof (zlen_nonneg src). unfold zlen in *. lia. Qed.
Lemma cmesh_step_ok {D} tI (a2 : arr D) tS i axes o pre post : (forall a, o = Some a -> column a) -> rd tI i = Ok (ax_i o) -> rd tS (i + 3) = Ok (ax_s o) ->
  vals a2 = pre ++ optV o ++ post ->
  cmesh_step tI a2 tS i (axes, zlen pre) = Ok (axes ++ [unnamed <$> o], zlen (pre ++ optV o)).
Proof.
  intros H H1 H2 H3. pose proof (ax_size o H) as L. unfold cmesh_step. rewrite H1. bok. rewrite zlen_app. destruct o as [a|]; cbn [ax_i optV ax_s fmap option_fmap option_map] in *.
  2:{ rewrite L. rewrite Z.add_0_r. done. }
  destruct (H a eq_refl) as (s & v & E1 & E2). pose proof (column_tuples a (H a eq_refl)) as T. pose proof (zlen_nonneg (vals a)).
  rewrite T. replace (zlen (vals a) =? -1) with false by lia. rewrite alloc_new by (done || lia). bok. rewrite H2. bok. rewrite E1. cbn [hd].
  unfold setInfo. change (nComp _) with 1. cbn [negb andb Z.leb Z.ltb Z.compare]. unfold ifthrow. bok. rewrite H3, (subv_mid _ pre (vals a) post) by done. bok.
  cbn [a_name a_info a_mem newArr]. rewrite copy_full' by lia. bok. unfold unnamed. rewrite E1, E2. unfold vals. rewrite E2. done.
Qed.
Lemma cmesh_unser_ok {D} (m : cmesh D) (a1 : arr Z) (a2 : arr D) tD tI tS : cmesh_ok m -> vals a2 = concat (@optV D <$> c_axes m) -> cmesh_tiny m = Ok (tD, tI, tS) ->
  cmesh_unserialize tD tI a1 a2 tS = Ok (cmesh_rebuilt m).
Proof.
  intros H E T. rewrite cmesh_tiny_ok in T by done. injection T as <- <- <-. destruct H as [H0 H]. destruct m as [[nm ds un ti it od] ax]. cbn [c_axes c_head h_name h_desc h_unit h_time h_it h_ord] in *.
  destruct ax as [|x [|y [|z [|? ?]]]]; try discriminate H0. rewrite !fmap_cons, !fmap_nil in *. cbn [concat app] in E. rewrite app_nil_r in E.
  unfold cmesh_unserialize. cbn [app]. do 3 rdl.
  match goal with |- context [forZ 0 3 ?f] => change f with (cmesh_step [ax_i x; ax_i y; ax_i z; it; od] a2 [nm; ds; un; ax_s x; ax_s y; ax_s z]) end.
  rewrite forZ_step by lia. rewrite (cmesh_step_ok _ _ _ 0 [] x [] (optV y ++ optV z)) by (try done; intros a ->; apply H; set_solver). bok.
  rewrite forZ_step by lia. rewrite (cmesh_step_ok _ _ _ (0 + 1) _ y ([] ++ optV x) (optV z)) by (try done; intros a ->; apply H; set_solver). bok.
  rewrite forZ_step by lia. rewrite (cmesh_step_ok _ _ _ (0 + 1 + 1) _ z (([] ++ optV x) ++ optV y) []) by (rewrite ?app_nil_r, <- ?app_assoc; try done; intros a ->; apply H; set_solver). bok.
  rewrite forZ_empty by lia. bok. do 3 rdl. done.
Qed.
Lemma cmesh_pickle_ok {D} (m : cmesh D) : cmesh_ok m -> cmesh_pickle m = Ok (cmesh_rebuilt m).
Proof.
  intros H. unfold cmesh_pickle. pose proof (cmesh_tiny_ok m H) as T. cbv zeta in T. pose proof (cmesh_unser_ok m) as U. rewrite T in U |- *. bok.
  rewrite cmesh_serialize_ok by done. bok. apply U; done.
Qed.
Lemma cmesh_transmit_ok {D} (m : cmesh D) : cmesh_ok m -> cmesh_transmit m = Ok (cmesh_rebuilt m).
Proof.
  intros H. unfold cmesh_transmit. pose proof (cmesh_tiny_ok m H) as T. cbv zeta in T. pose proof (cmesh_unser_ok m) as U. rewrite T in U |- *. bok.
  rewrite cmesh_serialize_ok by done.
  assert (R : @cmesh_resize D ((ax_i <$> c_axes m) ++ [h_it (c_head m); h_ord (c_head m)]) newArr newArr =
    Ok (Arr "" [""] (Some []), Arr "" [""] (Some (malloc D (zlen (concat (@optV D <$> c_axes m))))))).
  { unfold cmesh_resize. rewrite alloc_new by done. bok. destruct H as [H0 H]. destruct (c_axes m) as [|x [|y [|z [|? ?]]]]; try discriminate H0. rewrite !fmap_cons, !fmap_nil. cbn [concat app].
    do 3 (rewrite forZ_step by lia; rdl; bok). rewrite forZ_empty by lia. bok. rewrite app_nil_r, !zlen_app. rewrite (ax_size x), (ax_size y), (ax_size z) by (intros a ->; apply H; set_solver).
    assert (A : forall n p q, (if n =? -1 then p else p + q) = p + (if n =? -1 then 0 else q)) by (intros n p q; destruct (n =? -1); lia). rewrite !A, Z.add_0_l.
    pose proof (zlen_nonneg (optV x)) as Lx. pose proof (zlen_nonneg (optV y)) as Ly. pose proof (zlen_nonneg (optV z)) as Lz.
    rewrite ax_size in Lx, Ly, Lz by (intros a ->; apply H; set_solver). rewrite alloc_new by (done || lia). bok. rewrite !Z.mul_1_l, Z.add_assoc. done. }
  rewrite R. bok. bok. unfold recv at 1. rewrite copy_full by done. bok. unfold recv. rewrite copy_full' by done. bok. apply U; done.
Qed.
Lemma imesh_ok {D} (m : imesh D) : imesh_pickle m = Ok m /\ imesh_transmit m = Ok m.
Proof.
  destruct m as [[nm ds un ti it od] ax dm [[? ?] ?] [[? ?] ?] [[? ?] ?]]. split; reflexivity.
Qed.
