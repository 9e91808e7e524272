From stdpp Require Import strings.
From Verif Require Import Base ArrLib SerModel SerProofs MfModel MfSpec IndexProofs4 TreeProofs TreeProofs9 ConnProofs2 TyProofs5 DtProofs4 MfProofs MfProofs2 MfProofs3.
From Coq Require Import QArith ZifyBool ZifyNat.
Local Open Scope Z_scope.
Local Open Scope list_scope.

(** the vector of integers, cut in its parts *)
Definition V (h b1 b2 b3 b4 b5 b6 : list Z) : list Z := h ++ b1 ++ b2 ++ b3 ++ b4 ++ b5 ++ b6.
Section wV.
  Context (n : Z) (h b1 b2 b3 b4 b5 : list Z).
  Hypothesis (Hh : zlen h = 3) (H1 : zlen b1 = n) (H2 : zlen b2 = n) (H3 : zlen b3 = n) (H4 : zlen b4 = n) (H5 : zlen b5 = n).
  Lemma wV1 l v c2 c3 c4 c5 c6 i : zlen l < n -> i = 3 + zlen l -> wr (V h (fill l n) c2 c3 c4 c5 c6) i v = Ok (V h (fill (l ++ [v]) n) c2 c3 c4 c5 c6).
  Proof using Hh. intros HL ->. unfold V. by rewrite wr_at by lia. Qed.
  Lemma wV2 l v c3 c4 c5 c6 i : zlen l < n -> i = n + 3 + zlen l -> wr (V h b1 (fill l n) c3 c4 c5 c6) i v = Ok (V h b1 (fill (l ++ [v]) n) c3 c4 c5 c6).
  Proof using Hh H1. intros HL ->. unfold V. rewrite (app_assoc h b1). rewrite wr_at by (rewrite ?zlen_app; lia). by rewrite <- !app_assoc. Qed.
  Lemma wV3 l v c4 c5 c6 i : zlen l < n -> i = 2 * n + 3 + zlen l -> wr (V h b1 b2 (fill l n) c4 c5 c6) i v = Ok (V h b1 b2 (fill (l ++ [v]) n) c4 c5 c6).
  Proof using Hh H1 H2. intros HL ->. unfold V. rewrite (app_assoc h b1), (app_assoc (h ++ b1)). rewrite wr_at by (rewrite ?zlen_app; lia). by rewrite <- !app_assoc. Qed.
  Lemma wV4 l v c5 c6 i : zlen l < n -> i = 3 * n + 3 + zlen l -> wr (V h b1 b2 b3 (fill l n) c5 c6) i v = Ok (V h b1 b2 b3 (fill (l ++ [v]) n) c5 c6).
  Proof using Hh H1 H2 H3. intros HL ->. unfold V. rewrite (app_assoc h b1), (app_assoc (h ++ b1)), (app_assoc ((h ++ b1) ++ b2)). rewrite wr_at by (rewrite ?zlen_app; lia). by rewrite <- !app_assoc. Qed.
  Lemma wV5 l v c6 i : zlen l < n -> i = 4 * n + 3 + zlen l -> wr (V h b1 b2 b3 b4 (fill l n) c6) i v = Ok (V h b1 b2 b3 b4 (fill (l ++ [v]) n) c6).
  Proof using Hh H1 H2 H3 H4. intros HL ->. unfold V. rewrite (app_assoc h b1), (app_assoc (h ++ b1)), (app_assoc ((h ++ b1) ++ b2)), (app_assoc (((h ++ b1) ++ b2) ++ b3)). rewrite wr_at by (rewrite ?zlen_app; lia). by rewrite <- !app_assoc. Qed.
  Lemma wV6 l v m i : zlen l < m -> i = 5 * n + 3 + zlen l -> wr (V h b1 b2 b3 b4 b5 (fill l m)) i v = Ok (V h b1 b2 b3 b4 b5 (fill (l ++ [v]) m)).
  Proof using Hh H1 H2 H3 H4 H5. intros HL ->. unfold V. rewrite (app_assoc h b1), (app_assoc (h ++ b1)), (app_assoc ((h ++ b1) ++ b2)), (app_assoc (((h ++ b1) ++ b2) ++ b3)), (app_assoc ((((h ++ b1) ++ b2) ++ b3) ++ b4)).
    rewrite <- (app_nil_r (fill l m)). rewrite wr_at by (rewrite ?zlen_app; lia). rewrite app_nil_r. by rewrite <- !app_assoc. Qed.
End wV.

Definition nD {I} (f : fld I) := zlen (tinyDbl2 f).
Definition nI {I} (f : fld I) := zlen (tinyInt2 f).
Lemma sum_sizes (ls : list (list Z)) a : foldl (fun n r => n + zlen r) a ls = a + zlen (concat ls).
Proof. revert a. induction ls as [|l ls IH]; intros a; cbn [foldl concat]; [change (zlen (A := Z) []) with 0; lia|]. rewrite IH, zlen_app. lia. Qed.

Lemma ser_ok {I} (gs : list (fld I)) ms refs das refs2 :
  getDifferentMeshes (Some <$> gs) = (ms, refs) -> getDifferentArrays (Some <$> gs) = (das, refs2) -> zlen refs = zlen gs -> zlen refs2 = zlen gs ->
  getTinySerializationInformation (Some <$> gs) =
    Ok (V [zlen gs; zlen (concat refs2); zlen (concat (tinyInt2 <$> gs))] refs (zlen <$> refs2) (f_kind <$> gs) (nD <$> gs) (nI <$> gs) (concat refs2) ++ concat (tinyInt2 <$> gs),
        concat (tinyDbl2 <$> gs), zlen ms, zlen das).
Proof.
  intros EM EA L1 L2. unfold getTinySerializationInformation. rewrite EM, EA, L1, sum_sizes, Z.add_0_l. set (n := zlen gs) in *. set (N := zlen (concat refs2)).
  pose proof (zlen_nonneg gs : 0 <= n) as Hn. pose proof (zlen_nonneg (concat refs2) : 0 <= N) as HN.
  replace (replicate (Z.to_nat (N + 5 * n + 3)) 0) with (V [0; 0; 0] (fill [] n) (fill [] n) (fill [] n) (fill [] n) (fill [] n) (fill [] N)).
  2: { unfold V. rewrite !fill_nil, <- !replicate_add. replace (Z.to_nat (N + 5 * n + 3)) with (3 + (Z.to_nat n + (Z.to_nat n + (Z.to_nat n + (Z.to_nat n + (Z.to_nat n + Z.to_nat N))))))%nat by lia. done. }
  assert (W0 : forall a b c x b1 b2 b3 b4 b5 b6, wr (V [a; b; c] b1 b2 b3 b4 b5 b6) 0 x = Ok (V [x; b; c] b1 b2 b3 b4 b5 b6)).
  { intros. apply (wr_app [] a ([b; c] ++ b1 ++ b2 ++ b3 ++ b4 ++ b5 ++ b6)). }
  assert (W1 : forall a b c x b1 b2 b3 b4 b5 b6, wr (V [a; b; c] b1 b2 b3 b4 b5 b6) 1 x = Ok (V [a; x; c] b1 b2 b3 b4 b5 b6)).
  { intros. apply (wr_app [a] b ([c] ++ b1 ++ b2 ++ b3 ++ b4 ++ b5 ++ b6)). }
  assert (W2 : forall a b c x b1 b2 b3 b4 b5 b6, wr (V [a; b; c] b1 b2 b3 b4 b5 b6) 2 x = Ok (V [a; b; x] b1 b2 b3 b4 b5 b6)).
  { intros. apply (wr_app [a; b] c (b1 ++ b2 ++ b3 ++ b4 ++ b5 ++ b6)). }
  rewrite W0. cbn [bind]. rewrite W1. cbn [bind].
  assert (F : forall A (g : A -> Z) l, fill (g <$> l) (zlen l) = g <$> l). { intros A g l. rewrite <- (zlen_fmap g l). apply fill_full. }
  assert (LT : forall A (l pre : list A) b post, l = pre ++ b :: post -> zlen pre < zlen l). { intros A l pre b post ->. rewrite zlen_app, zlen_cons. pose proof (zlen_nonneg post). lia. }
  assert (AT : forall A (l pre : list A) b post, l = pre ++ b :: post -> l @ zlen pre = Some b). { intros A l pre b post ->. rewrite zlook_app_r, Z.sub_diag by lia. done. }
  assert (L0 : zlen (fill [] n) = n) by (apply fill_len; change (zlen (A := Z) []) with 0; lia).
  (* sizes of the time information *)
  set (st := fun pre => (V [n; N; 0] (fill [] n) (fill [] n) (fill [] n) (fill (nD <$> pre) n) (fill (nI <$> pre) n) (fill [] N), concat (tinyDbl2 <$> pre), concat (tinyInt2 (I := I) <$> pre))).
  match goal with |- context [forZ 0 n ?body ?s0] => assert (R : forZ 0 n body s0 = Ok (st gs)); [apply (forZ_blocks body st n gs); [done|]; unfold st|rewrite R; clear R; unfold st; clear st] end.
  { intros pre b post E. pose proof (LT _ _ _ _ _ E) as B1. pose proof (AT _ _ _ _ _ E) as B2. fold n in B1. rewrite (rd_ok _ _ (Some b)) by (rewrite zlook_fmap, B2; done). cbn [bind].
    rewrite (wV4 n) by (try done; rewrite ?zlen_fmap; lia). cbn [bind]. rewrite (wV5 n) by (try done; rewrite ?zlen_fmap; try lia; apply fill_len; rewrite zlen_app, zlen_fmap; change (zlen [zlen (tinyDbl2 b)]) with 1; lia). cbn [bind].
    rewrite !fmap_app, !concat_app. cbn [fmap list_fmap concat]. by rewrite !app_nil_r. }
  cbn [bind]. rewrite W2. cbn [bind]. unfold n at 5 6. rewrite !F. fold n.
  set (k4 := nD <$> gs). set (k5 := nI <$> gs). set (h := [n; N; zlen (concat (tinyInt2 <$> gs))]).
  assert (L4 : zlen k4 = n) by apply zlen_fmap. assert (L5 : zlen k5 = n) by apply zlen_fmap.
  (* numbers of the meshes *)
  set (st := fun pre => V h (fill pre n) (fill [] n) (fill [] n) k4 k5 (fill [] N)).
  match goal with |- context [forZ 0 n ?body ?s0] => assert (R : forZ 0 n body s0 = Ok (st refs)); [apply (forZ_blocks body st n refs); [done|]; unfold st|rewrite R; clear R; unfold st; clear st] end.
  { intros pre b post E. pose proof (LT _ _ _ _ _ E) as B1. rewrite (rd_ok _ _ _ (AT _ _ _ _ _ E)). cbn [bind]. apply wV1; [done|lia|lia]. }
  cbn [bind]. assert (FR : fill refs n = refs) by (rewrite <- L1; apply fill_full). rewrite FR.
  (* numbers of arrays *)
  set (st := fun pre : list (list Z) => V h refs (fill (zlen <$> pre) n) (fill [] n) k4 k5 (fill [] N)).
  match goal with |- context [forZ 0 n ?body ?s0] => assert (R : forZ 0 n body s0 = Ok (st refs2)); [apply (forZ_blocks body st n refs2); [done|]; unfold st|rewrite R; clear R; unfold st; clear st] end.
  { intros pre b post E. pose proof (LT _ _ _ _ _ E) as B1. rewrite (rd_ok _ _ _ (AT _ _ _ _ _ E)). cbn [bind]. rewrite fmap_app. apply wV2; [done|lia|rewrite zlen_fmap; lia|rewrite zlen_fmap; lia]. }
  cbn [bind]. assert (FR2 : fill (zlen <$> refs2) n = zlen <$> refs2) by (rewrite <- L2; apply F). rewrite FR2.
  assert (L2' : zlen (zlen <$> refs2) = n) by (rewrite zlen_fmap; lia).
  (* kinds *)
  set (st := fun pre : list (fld I) => V h refs (zlen <$> refs2) (fill (f_kind <$> pre) n) k4 k5 (fill [] N)).
  match goal with |- context [forZ 0 n ?body ?s0] => assert (R : forZ 0 n body s0 = Ok (st gs)); [apply (forZ_blocks body st n gs); [done|]; unfold st|rewrite R; clear R; unfold st; clear st] end.
  { intros pre b post E. pose proof (LT _ _ _ _ _ E) as B1. pose proof (AT _ _ _ _ _ E) as B2. fold n in B1. rewrite (rd_ok _ _ (Some b)) by (rewrite zlook_fmap, B2; done). cbn [bind].
    rewrite fmap_app. apply wV3; [done|done|done|rewrite zlen_fmap; lia|rewrite zlen_fmap; lia]. }
  cbn [bind]. unfold n at 1. rewrite F. fold n. set (k3 := f_kind <$> gs). assert (L3 : zlen k3 = n) by apply zlen_fmap.
  (* numbers of the arrays *)
  assert (IN : forall r pre post, zlen pre + zlen r + zlen (A := Z) post = N ->
    foldM (fun st x => let '(v, k) := st in let* v := wr v (5 * n + k + 3) x in Ok (v, k + 1)) r (V h refs (zlen <$> refs2) k3 k4 k5 (fill pre N), zlen pre) =
    Ok (V h refs (zlen <$> refs2) k3 k4 k5 (fill (pre ++ r) N), zlen (pre ++ r))).
  { induction r as [|x r IH]; intros pre post HS; cbn [foldM]; [by rewrite app_nil_r|]. rewrite zlen_cons in HS. pose proof (zlen_nonneg r). pose proof (zlen_nonneg post).
    rewrite (wV6 n) by (try done; lia). cbn [bind]. replace (zlen pre + 1) with (zlen (pre ++ [x])) by (rewrite zlen_app; done). rewrite (IH _ post) by (rewrite zlen_app; change (zlen [x]) with 1; lia). by rewrite <- app_assoc. }
  assert (OUT : forall rs pre, zlen pre + zlen (concat rs) = N ->
    foldM (fun st r => foldM (fun st x => let '(v, k) := st in let* v := wr v (5 * n + k + 3) x in Ok (v, k + 1)) r st) rs (V h refs (zlen <$> refs2) k3 k4 k5 (fill pre N), zlen pre) =
    Ok (V h refs (zlen <$> refs2) k3 k4 k5 (fill (pre ++ concat rs) N), zlen (pre ++ concat rs))).
  { induction rs as [|r rs IH]; intros pre HS; cbn [foldM concat]; [by rewrite app_nil_r|]. cbn [concat] in HS. rewrite zlen_app in HS. rewrite (IN r pre (concat rs)) by lia. cbn [bind]. rewrite IH by (rewrite zlen_app; lia). by rewrite <- app_assoc. }
  specialize (OUT refs2 []). change (zlen (A := Z) []) with 0 in OUT. rewrite OUT by done. cbn [bind app]. unfold N. rewrite fill_full. done.
Qed.
