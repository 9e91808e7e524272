From Verif Require Import Base ArrLib GlModel GlProofs2 SerModel DtModel DtSpec IndexProofs4 TreeProofs TreeProofs10.
From Coq Require Import QArith Qabs Lqa ZifyBool ZifyNat.
Local Open Scope Z_scope.

Lemma Qltb_no x y : Qltb x y = false <-> (y <= x)%Q.
Proof. rewrite <- not_true_iff_false, Qltb_iff. split; [apply Qnot_lt_le|intros H H'; lra]. Qed.
Lemma Qltb_spec x y : Bool.reflect (x < y)%Q (Qltb x y).
Proof. destruct (Qltb x y) eqn:E; constructor; [by apply Qltb_iff|]. intros H. apply Qltb_iff in H. congruence. Qed.
Lemma abs_lt x e : (Qabs x < e)%Q <-> (- e < x)%Q /\ (x < e)%Q.
Proof. split; [intros H|intros [H1 H2]]. - pose proof (Qle_Qabs x). pose proof (Qle_Qabs (- x)). rewrite Qabs_opp in *. lra.
  - destruct (Qlt_le_dec x 0). + rewrite Qabs_neg by lra. lra. + rewrite Qabs_pos by lra. lra. Qed.
Lemma abs_le x e : (Qabs x <= e)%Q <-> (- e <= x)%Q /\ (x <= e)%Q.
Proof. split; [intros H|intros [H1 H2]]. - pose proof (Qle_Qabs x). pose proof (Qle_Qabs (- x)). rewrite Qabs_opp in *. lra.
  - destruct (Qlt_le_dec x 0). + rewrite Qabs_neg by lra. lra. + rewrite Qabs_pos by lra. lra. Qed.

Lemma contains_iff s tm e : isContaining s tm e = true <-> holds e tm s.
Proof. destruct s; cbn [isContaining holds]; rewrite ?andb_true_iff, ?Qltb_iff; done. Qed.
Lemma holding_total e tm sl : exists c, holding e tm sl c.
Proof.
  induction sl as [|s sl [c IH]]; [eexists; constructor|]. destruct (isContaining s tm e) eqn:E.
  - apply contains_iff in E. eexists; by constructor.
  - exists c. apply h_no; [|done]. rewrite <- contains_iff. congruence.
Qed.
Lemma holding_app e tm sl sl' c c' : holding e tm sl c -> holding e tm sl' c' -> holding e tm (sl ++ sl') (c ++ c').
Proof. induction 1; intros H'; cbn; [done|constructor 2; auto|constructor 3; auto]. Qed.
Lemma holding_elem e tm sl c s : holding e tm sl c -> s ∈ c -> s ∈ sl /\ holds e tm s.
Proof.
  induction 1 as [|s' sl c H1 H2 IH|s' sl c H1 H2 IH]; intros Hs; [inversion Hs| |].
  - apply elem_of_cons in Hs as [->|Hs]; [split; [left|done]|]. destruct (IH Hs). split; [by right|done].
  - destruct (IH Hs). split; [by right|done].
Qed.
Lemma holding_in e tm sl c s : holding e tm sl c -> s ∈ sl -> holds e tm s -> s ∈ c.
Proof.
  induction 1 as [|s' sl c H1 H2 IH|s' sl c H1 H2 IH]; intros Hs Ht; [inversion Hs| |];
    apply elem_of_cons in Hs as [->|Hs]; try done; [left|right; auto|auto].
Qed.

Fixpoint pos (e tm : Q) (k : Z) (sl : list slice) : list Z :=
  match sl with [] => [] | s :: r => if isContaining s tm e then k :: pos e tm (k + 1) r else pos e tm (k + 1) r end.
Lemma pos_app e tm sl sl' k : pos e tm k (sl ++ sl') = pos e tm k sl ++ pos e tm (k + zlen sl) sl'.
Proof.
  revert k. induction sl as [|s sl IH]; intros k; [cbn; by rewrite zlen_nil, Z.add_0_r|].
  cbn [app pos]. rewrite IH, zlen_cons. replace (k + (1 + zlen sl)) with (k + 1 + zlen sl) by lia. by destruct (isContaining s tm e).
Qed.
Lemma pos_look e tm sl c pre : holding e tm sl c -> Forall2 (fun id s => (pre ++ sl) @ id = Some s) (pos e tm (zlen pre) sl) c.
Proof.
  intros H. revert pre. induction H as [|s sl c H1 H2 IH|s sl c H1 H2 IH]; intros pre; cbn [pos]; [constructor| |].
  - apply contains_iff in H1. rewrite H1. constructor; [rewrite zlook_app_r, Z.sub_diag by lia; done|].
    specialize (IH (pre ++ [s])). rewrite <- app_assoc, zlen_app in IH. exact IH.
  - assert (E : isContaining s tm e = false) by (apply not_true_iff_false; by rewrite contains_iff). rewrite E.
    specialize (IH (pre ++ [s])). rewrite <- app_assoc, zlen_app in IH. exact IH.
Qed.
Lemma sliceIds_iff s tm e r : sliceIds s tm e = Ok r <-> answers e tm s r.
Proof.
  destruct s as [m a f t|m a f t0 t1|m a b f t0 t1]; cbn [sliceIds].
  - split; [intros E; inversion E; subst; constructor|by inversion 1].
  - split; [intros E; inversion E; subst; constructor|by inversion 1].
  - destruct (Qltb_spec (Qabs (tm - t0)) e) as [H|H]; [split; [intros E; inversion E; subst; by constructor|inversion 1; subst; [done|lra]]|].
    destruct (Qltb_spec (Qabs (tm - t1)) e) as [H'|H']; [split; [intros E; inversion E; subst; constructor; [by apply Qnot_lt_le|done]|inversion 1; subst; done]|].
    split; [done|inversion 1; subst; done].
Qed.
Lemma sliceIds_throw s tm e : (forall r, ~ answers e tm s r) <-> sliceIds s tm e = Throw.
Proof.
  split.
  - intros H. destruct (sliceIds s tm e) as [r| | |] eqn:E; [by apply sliceIds_iff, H in E|done| |];
      destruct s; cbn [sliceIds] in E; repeat destruct (Qltb _ _); congruence.
  - intros H r Hr%sliceIds_iff. congruence.
Qed.
Lemma ids_loop sl e tm l c : Forall2 (fun id s => sl @ id = Some s) l c -> forall acc,
  let r := foldM (fun acc id => let* s := rd sl id in let* r := sliceIds s tm e in Ok (acc ++ [r])) l acc in
  (exists rs, Forall2 (answers e tm) c rs /\ r = Ok (acc ++ rs)) \/ ((exists s, s ∈ c /\ sliceIds s tm e = Throw) /\ r = Throw).
Proof.
  induction 1 as [|id s l c H1 H2 IH]; intros acc.
  - cbn. left. exists []. rewrite app_nil_r. by split.
  - cbn [foldM]. rewrite (rd_ok _ _ _ H1). cbn [bind]. destruct (sliceIds s tm e) as [r| | |] eqn:E.
    + cbn [bind]. destruct (IH (acc ++ [r])) as [(rs & R1 & R2)|((s' & R1 & R2) & R3)].
      * left. exists (r :: rs). split; [constructor; [by apply sliceIds_iff|done]|]. cbn beta zeta in *. rewrite R2, <- app_assoc. done.
      * right. split; [exists s'; split; [by right|done]|done].
    + right. split; [exists s; split; [left|done]|done].
    + exfalso. assert (sliceIds s tm e <> UB) by (destruct s; cbn [sliceIds]; repeat destruct (Qltb _ _); discriminate). done.
    + exfalso. assert (sliceIds s tm e <> Fuel) by (destruct s; cbn [sliceIds]; repeat destruct (Qltb _ _); discriminate). done.
Qed.
Lemma ids_run e sl tm c : holding e tm sl c ->
  (exists rs, 1 <= zlen c <= 2 /\ Forall2 (answers e tm) c rs /\ getIdsOnTime (DT (Some e) sl) tm = Ok rs) \/
  ((c = [] \/ 2 < zlen c \/ exists s, s ∈ c /\ forall r, ~ answers e tm s r) /\ getIdsOnTime (DT (Some e) sl) tm = Throw).
Proof.
  intros Hc. unfold getIdsOnTime. cbn [d_slices].
  rewrite (forZ_blocks _ (fun pre => pos e tm 0 pre) _ sl).
  2: done.
  2: { intros pre b post E. rewrite (rd_ok _ _ b) by (rewrite E, zlook_app_r, Z.sub_diag by lia; done). cbn [bind epsOf d_eps].
       rewrite pos_app. cbn [pos]. rewrite Z.add_0_l. destruct (isContaining b tm e); [done|by rewrite app_nil_r]. }
  cbn [bind]. pose proof (pos_look e tm sl c [] Hc) as HP. cbn [app] in HP. rewrite zlen_nil in HP.
  assert (EL : zlen (pos e tm 0 sl) = zlen c) by (unfold zlen; by rewrite (Forall2_length _ _ _ HP)). rewrite EL.
  destruct (Z.eqb_spec (zlen c) 0) as [E|E]. { right. split; [left|done]. destruct c; [done|rewrite zlen_cons in E; pose proof (zlen_nonneg c); lia]. }
  cbn [ifthrow]. destruct (Z.ltb_spec 2 (zlen c)) as [E2|E2]; [right; split; [by right; left|done]|]. cbn [ifthrow].
  unfold forZ. rewrite Z.sub_0_r, <- EL. cbn [epsOf d_eps].
  pose proof (foldM_rd (fun id acc => let* s := rd sl id in let* e := Ok e in let* r := sliceIds s tm e in Ok (acc ++ [r])) (pos e tm 0 sl) [] []) as HF.
  change (zlen (A := Z) []) with 0 in HF. cbn [app] in HF. rewrite HF. clear HF.
  destruct (ids_loop sl e tm _ c HP []) as [(rs & R1 & R2)|((s' & R1 & R2) & R3)].
  - left. exists rs. split; [pose proof (zlen_nonneg c); lia|]. split; [done|]. exact R2.
  - right. split; [right; right; exists s'; split; [done|by apply sliceIds_throw]|exact R3].
Qed.
Lemma F2_answers e tm c r r' : Forall2 (answers e tm) c r -> Forall2 (answers e tm) c r' -> r = r'.
Proof.
  intros H. revert r'. induction H as [|s x c r H1 H2 IH]; intros r' H'; inversion H'; subst; [done|]. f_equal; [|auto].
  match goal with A : answers _ _ _ ?y, B : answers _ _ _ x |- _ => apply sliceIds_iff in A; apply sliceIds_iff in B; congruence end.
Qed.
Lemma ids_thm e sl tm : exists c, holding e tm sl c /\
  (forall r, getIdsOnTime (DT (Some e) sl) tm = Ok r <-> 1 <= zlen c <= 2 /\ Forall2 (answers e tm) c r) /\
  (getIdsOnTime (DT (Some e) sl) tm = Throw <-> c = [] \/ 2 < zlen c \/ exists s, s ∈ c /\ forall r, ~ answers e tm s r).
Proof.
  destruct (holding_total e tm sl) as [c Hc]. exists c. split; [done|].
  destruct (ids_run e sl tm c Hc) as [(rs & R1 & R2 & R3)|(R1 & R3)]; rewrite R3.
  - split.
    + intros r. split; [intros [= <-]; done|]. intros [_ H]. f_equal. by apply (F2_answers e tm c).
    + split; [done|]. intros [->|[H|(s & Hs & H)]]; [rewrite zlen_nil in R1; lia|lia|].
      apply elem_of_list_lookup in Hs as [i Hi]. destruct (Forall2_lookup_l _ _ _ _ _ R2 Hi) as (x & _ & Hx). by apply H in Hx.
  - split; [|done]. intros r. split; [done|]. intros [H1 H2]. exfalso. destruct R1 as [->|[H|(s & Hs & H)]]; [rewrite zlen_nil in H1; lia|lia|].
    apply elem_of_list_lookup in Hs as [i Hi]. destruct (Forall2_lookup_l _ _ _ _ _ H2 Hi) as (x & _ & Hx). by apply H in Hx.
Qed.
Lemma right_thm d tm r : getIdsOnTimeRight d tm = Ok r <-> exists p, getIdsOnTime d tm = Ok (p ++ [r]).
Proof.
  unfold getIdsOnTimeRight. destruct (getIdsOnTime d tm) as [l| | |]; cbn [bind]; [|split; [done|intros [p H]; done]..]. split.
  - destruct l as [|x l _] using rev_ind; [done|]. rewrite zlen_app, zlen_cons, zlen_nil. rewrite (rd_ok _ _ x); [intros [= <-]; by exists l|].
    replace (zlen l + (1 + 0) - 1) with (zlen l) by lia. rewrite zlook_app_r, Z.sub_diag by lia. done.
  - intros [p [= ->]]. apply rd_ok. rewrite zlen_app, zlen_cons, zlen_nil.
    replace (zlen p + (1 + 0) - 1) with (zlen p) by lia. rewrite zlook_app_r, Z.sub_diag by lia. done.
Qed.
Lemma left_thm d tm r : getIdsOnTimeLeft d tm = Ok r <-> exists p, getIdsOnTime d tm = Ok (r :: p).
Proof.
  unfold getIdsOnTimeLeft. destruct (getIdsOnTime d tm) as [l| | |]; cbn [bind]; [|split; [done|intros [p H]; done]..]. split.
  - destruct l as [|x l]; [done|]. cbn. intros [= <-]. by exists l.
  - intros [p [= ->]]. done.
Qed.
