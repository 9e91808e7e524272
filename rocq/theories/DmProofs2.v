(** The sessions. *)
From Coq Require Import QArith Qcanon ZifyBool ZifyNat.
From Verif Require Import Base ArrLib DataArray SetModel ArithModel RemapSpec IvModel IvSpec DmModel DmSpec DmProofs.
Local Open Scope Z_scope.

Definition good_dm (h : heap) (m : dm) : Prop := exists M, denotes h m (dm_rows m) (dm_cols m) M.
Lemma good_sizes h m : good_dm h m <-> 0 <= dm_rows m /\ 0 <= dm_cols m /\ exists l, is_array h (dm_data m) l /\ zlen l = dm_rows m * dm_cols m.
Proof.
  split; [intros (M & H1 & H2 & _ & _ & l & HA & [HL _]); split; [done|]; split; [done|]; by exists l|]. intros (H1 & H2 & l & HA & HL). eexists. split; [done|]. split; [done|]. split; [done|]. split; [done|]. exists l. split; [done|]. by apply rows_fun.
Qed.
Definition same_sizes (h h' : heap) : Prop := forall q l, is_array h q l -> exists l', is_array h' q l' /\ zlen l' = zlen l.
Lemma kept_sizes h h' : kept h h' -> same_sizes h h'.
Proof. intros K q l H. exists l. split; [by apply K|done]. Qed.
Lemma but_sizes q h h' l l' : kept_but q h h' -> is_array h q l -> is_array h' q l' -> zlen l' = zlen l -> same_sizes h h'.
Proof.
  intros [_ K] H H' E q2 l2 H2. destruct (Z.eq_dec q2 q) as [->|N]; [|exists l2; split; [unfold is_array; by rewrite K|done]]. exists l'. split; [done|]. assert (l2 = l) as -> by (unfold is_array in *; congruence). done.
Qed.
Lemma good_heap h h' m : same_sizes h h' -> good_dm h m -> good_dm h' m.
Proof. intros K H. apply good_sizes in H as (H1 & H2 & l & HA & HL). apply good_sizes. split; [done|]. split; [done|]. destruct (K _ _ HA) as (l' & HA' & E). exists l'. split; [done|]. lia. Qed.
Lemma sound_heap h h' ms : same_sizes h h' -> sound (h, ms) -> sound (h', ms).
Proof. intros K H m Hm. apply (good_heap h h' m K). by apply H. Qed.
Lemma sound_add h ms m : sound (h, ms) -> good_dm h m -> sound (h, ms ++ [m]).
Proof. intros H G m' Hm. cbn [snd] in Hm. apply elem_of_app in Hm as [Hm|Hm]; [by apply H|]. apply elem_of_list_singleton in Hm as ->. done. Qed.
Lemma sound_set h ms i m : sound (h, ms) -> 0 <= i < zlen ms -> good_dm h m -> sound (h, zset ms i m).
Proof.
  intros H Hi G m' Hm. cbn [snd fst] in *. apply elem_of_zlook in Hm as (k & Hk). destruct (Z.eq_dec k i) as [->|N]; rewrite zlook_zset in Hk by done.
  - rewrite Z.eqb_refl in Hk. injection Hk as <-. done.
  - replace (k =? i) with false in Hk by lia. apply H. by apply (zlook_elem _ k).
Qed.
Lemma fresh_sound h ms x r c M : sound (h, ms) -> fresh h x r c M -> sound (fst x, ms ++ [snd x]).
Proof.
  intros H (D & _ & K). apply sound_add; [by apply (sound_heap h), H; apply kept_sizes|]. exists M. pose proof D as (_ & _ & E1 & E2 & _). by rewrite E1, E2.
Qed.
Lemma new_good h p r c q : CheckArraySizes h p r c = Ok q -> good_dm h (DM r c q).
Proof. intros E. apply check_iff in E as (H1 & H2 & _ & l & HA & HL). apply good_sizes. cbn [dm_rows dm_cols dm_data]. split; [done|]. split; [done|]. by exists l. Qed.

Definition goes (s : session) (r : res session) : Prop := r = Throw \/ exists s', r = Ok s' /\ sound s'.
Lemma at_goes s ms i k : (forall m, ms @ i = Some m -> goes s (k m)) -> goes s (at_ ms i k).
Proof. intros H. unfold at_. destruct (ms @ i) as [m|]; [by apply H|by left]. Qed.
Lemma ptr_goes s h p k : ((forall q, p = Some q -> 0 <= q < zlen h) -> goes s k) -> goes s (ptr h p k).
Proof. intros H. unfold ptr. destruct p as [q|]; [|by apply H]. destruct (h @ q) as [a|] eqn:E; [|by left]. apply H. intros q' [= <-]. by apply zlook_Some_lt in E. Qed.
Lemma sound_at h ms i m : sound (h, ms) -> ms @ i = Some m -> exists M, denotes h m (dm_rows m) (dm_cols m) M.
Proof. intros H Hm. apply H. by apply (zlook_elem _ i). Qed.
Lemma fresh_goes h ms (r : res (heap * dm)) : sound (h, ms) -> (r = Throw \/ exists x a b M, r = Ok x /\ fresh h x a b M) -> goes (h, ms) (let* (h, m') := r in Ok (h, ms ++ [m'])).
Proof. intros H [->|((h', m') & a & b & M & -> & F)]; [by left|right]. eexists. split; [done|]. by apply (fresh_sound h ms (h', m') a b M). Qed.
Lemma mul_cases h a b : good_dm h a -> good_dm h b -> Multiply h a b = Throw \/ exists x r c M, Multiply h a b = Ok x /\ fresh h x r c M.
Proof.
  intros (MA & DA_) (MB & DB). destruct (Z.eq_dec (dm_cols a) (dm_rows b)) as [E|N]; [|left; by apply (multiply_bad h a b _ _ _ _ MA MB DA_ DB)]. rewrite <- E in DB. destruct (multiply_ok h a b _ _ _ MA MB DA_ DB) as (x & MC & E2 & F & _). right. by exists x, (dm_rows a), (dm_cols b), MC.
Qed.
Lemma eq_goes (oper : heap -> dm -> dm -> res heap) (f : Qc -> Qc -> Qc) h ms a b : sound (h, ms) -> good_dm h a -> good_dm h b ->
  (forall r c MA MB, denotes h a r c MA -> denotes h b r c MB -> exists h', oper h a b = Ok h' /\ denotes h' a r c (comb f MA MB) /\ kept_but (dm_data a) h h') ->
  (forall r c r' c' MA MB, denotes h a r c MA -> denotes h b r' c' MB -> r <> r' \/ c <> c' -> oper h a b = Throw) -> goes (h, ms) (let* h := oper h a b in Ok (h, ms)).
Proof.
  intros H (MA & DA_) (MB & DB) H1 H2. destruct (decide (dm_rows a = dm_rows b /\ dm_cols a = dm_cols b)) as [[E1 E2]|N]; [|left; by rewrite (H2 _ _ _ _ MA MB DA_ DB) by lia]. rewrite <- E1, <- E2 in DB. destruct (H1 _ _ MA MB DA_ DB) as (h' & -> & D & K). right. eexists. split; [done|].
  destruct DA_ as (_ & _ & _ & _ & l & HA & [HL _]). destruct D as (_ & _ & _ & _ & l' & HA' & [HL' _]). apply (sound_heap h h'); [|done]. apply (but_sizes _ h h' l l' K HA HA'). lia.
Qed.
Lemma step_goes s o : sound s -> goes s (step s o).
Proof.
  destruct s as [h ms]. intros H. destruct o as [p r c|i|i|i p r c|i r c|i|i j|i j|i j|i j|i j|i p|i p|p k v]; cbn [step].
  - apply ptr_goes. intros HP. unfold New. destruct (check_throw h p r c HP) as [(q & E)| ->]; [|by left]. rewrite E. right. eexists. split; [done|]. apply sound_add; [done|]. by apply (new_good h p).
  - apply at_goes. intros m Hm. destruct (sound_at h ms i m H Hm) as (M & D). apply fresh_goes; [done|]. right. destruct (copy_ok h m _ _ M D) as (x & E & F). by exists x, (dm_rows m), (dm_cols m), M.
  - apply at_goes. intros m Hm. destruct (sound_at h ms i m H Hm) as (M & D). rewrite (shallow_ok h m _ _ M D). right. eexists. split; [done|]. apply sound_add; [done|]. by exists M.
  - apply at_goes. intros m Hm. pose proof (zlook_Some_lt _ _ _ Hm) as Hi. apply ptr_goes. intros HP. unfold reBuild, getNumberExt. destruct (r <? -1); [by left|]. cbn [ifthrow bind]. destruct (c <? -1); [by left|]. cbn [ifthrow bind].
    match goal with |- context [CheckArraySizes h p ?a ?b] => destruct (check_throw h p a b HP) as [(q & E)| ->] end; [|by left]. rewrite E. cbn [bind]. rewrite wr_ok by done. right. eexists. split; [done|]. apply sound_set; [done|done|]. by apply (new_good h p).
  - apply at_goes. intros m Hm. pose proof (zlook_Some_lt _ _ _ Hm) as Hi. destruct (sound_at h ms i m H Hm) as (M & D). destruct (decide (r < 0 \/ c < 0 \/ r * c <> dm_rows m * dm_cols m)) as [B|B]; [left; by rewrite (reshape_bad m r c B)|].
    destruct (reshape_ok h m _ _ M r c D ltac:(lia) ltac:(lia) ltac:(lia)) as (m' & M' & -> & _ & D' & _). cbn [bind]. rewrite wr_ok by done. right. eexists. split; [done|]. apply sound_set; [done|done|]. exists M'. pose proof D' as (_ & _ & E1 & E2 & _). by rewrite E1, E2.
  - apply at_goes. intros m Hm. pose proof (zlook_Some_lt _ _ _ Hm) as Hi. destruct (sound_at h ms i m H Hm) as (M & D). pose proof D as (_ & Hc & _ & _ & l & HA & [HL _]). destruct (Z.eq_dec (dm_cols m) 0) as [E0|N].
    + left. rewrite E0 in D. by rewrite (transpose_empty h m _ M D).
    + destruct (transpose_ok h m _ _ M D ltac:(lia)) as (h' & m' & -> & _ & D' & K & l' & HA' & [HL' _]). cbn [bind]. rewrite wr_ok by done. right. eexists. split; [done|]. apply sound_set; [|done|].
      * apply (sound_heap h h'); [|done]. apply (but_sizes _ h h' l l' K HA HA'). lia.
      * eexists. pose proof D' as (_ & _ & E1 & E2 & _). rewrite E1, E2. exact D'.
  - apply at_goes. intros a Ha. apply at_goes. intros b Hb. destruct (sound_at h ms i a H Ha) as (MA & DA_), (sound_at h ms j b H Hb) as (MB & DB). apply fresh_goes; [done|].
    destruct (decide (dm_rows a = dm_rows b /\ dm_cols a = dm_cols b)) as [[E1 E2]|N]; [right|left; apply (sizes_bad h a b _ _ _ _ MA MB DA_ DB); lia]. rewrite <- E1, <- E2 in DB. destruct (add_ok h a b _ _ MA MB DA_ DB) as (x & E & F). by eexists x, _, _, _.
  - apply at_goes. intros a Ha. apply at_goes. intros b Hb. destruct (sound_at h ms i a H Ha) as (MA & DA_), (sound_at h ms j b H Hb) as (MB & DB). apply fresh_goes; [done|].
    destruct (decide (dm_rows a = dm_rows b /\ dm_cols a = dm_cols b)) as [[E1 E2]|N]; [right|left; apply (sizes_bad h a b _ _ _ _ MA MB DA_ DB); lia]. rewrite <- E1, <- E2 in DB. destruct (sub_ok h a b _ _ MA MB DA_ DB) as (x & E & F). by eexists x, _, _, _.
  - apply at_goes. intros a Ha. apply at_goes. intros b Hb. apply (eq_goes addEqual Qcplus); [done|by apply (sound_at h ms i)|by apply (sound_at h ms j)|intros r c MA MB; apply addEqual_ok|]. intros r c r' c' MA MB D1 D2 N. by destruct (sizes_bad h a b _ _ _ _ MA MB D1 D2 N) as (_ & _ & ? & _).
  - apply at_goes. intros a Ha. apply at_goes. intros b Hb. apply (eq_goes substractEqual Qcminus); [done|by apply (sound_at h ms i)|by apply (sound_at h ms j)|intros r c MA MB; apply subEqual_ok|]. intros r c r' c' MA MB D1 D2 N. by destruct (sizes_bad h a b _ _ _ _ MA MB D1 D2 N) as (_ & _ & _ & ?).
  - apply at_goes. intros a Ha. apply at_goes. intros b Hb. apply fresh_goes; [done|]. apply mul_cases; [by apply (sound_at h ms i)|by apply (sound_at h ms j)].
  - apply at_goes. intros a Ha. apply ptr_goes. intros HP. apply fresh_goes; [done|]. destruct p as [p|]; [|by left]. destruct (zlook_lt h p (HP p eq_refl)) as [[al nc v] E].
    destruct al; [|left; unfold MultiplyArr; by rewrite (rd_ok _ _ _ E)]. destruct (Z.eqb_spec nc 1) as [->|N]; [|left; unfold MultiplyArr; rewrite (rd_ok _ _ _ E); cbn [bind da_alloc negb ifthrow da_nc]; by replace (nc =? 1) with false by lia].
    rewrite (multiplyArr_eq h a p v E). apply mul_cases; [by apply (sound_at h ms i)|]. eexists. by apply column_denotes.
  - apply at_goes. intros a Ha. destruct (sound_at h ms i a H Ha) as (MA & DA_). apply ptr_goes. intros HP. destruct p as [p|]; [|by left]. destruct (zlook_lt h p (HP p eq_refl)) as [[al nc v] E].
    destruct al; [|left; unfold MatVecMult; by rewrite (rd_ok _ _ _ E)]. destruct (Z.eqb_spec nc 1) as [->|N]; [|left; unfold MatVecMult; rewrite (rd_ok _ _ _ E); cbn [bind da_alloc negb ifthrow da_nc]; by replace (nc =? 1) with false by lia].
    destruct (Z.eq_dec (zlen v) (dm_cols a)) as [EL|N]; [|left; by rewrite (matvec_bad h a _ _ MA p v DA_ E N)]. destruct (matvec_ok h a _ _ MA p v DA_ E EL) as (h' & l & -> & _ & _ & K). right. eexists. split; [done|]. apply (sound_heap h h'); [by apply kept_sizes|done].
  - apply ptr_goes. intros HP. destruct (zlook_lt h p (HP p eq_refl)) as [a E]. rewrite (rd_ok _ _ _ E). cbn [bind]. destruct ((0 <=? k) && (k <? zlen (da_vals a))) eqn:Ek; [|by left]. rewrite wr_ok by lia. cbn [bind]. rewrite wr_ok by (by apply HP). right. eexists. split; [done|].
    apply (sound_heap h); [|done]. intros q l Hq. unfold is_array in *. rewrite zlook_zset by (by apply HP). destruct (Z.eqb_spec q p) as [->|]; [|by exists l]. rewrite E in Hq. injection Hq as ->. cbn [da_alloc da_nc da_vals]. eexists. split; [done|]. by rewrite zlen_zset.
Qed.
Lemma run_ok ops s : sound s -> exists s', run ops s = Ok s' /\ sound s'.
Proof.
  revert s. induction ops as [|o ops IH]; intros s H; [by exists s|]. unfold run. cbn [foldM]. destruct (step_goes s o H) as [->|(s' & -> & H')]; cbn [bind]; [by apply IH|by apply IH].
Qed.
(** What a shared array becomes. *)
Lemma shared_ok h m m2 r c M : denotes h m r c M -> 0 < c -> denotes h m2 r c M -> dm_data m2 = dm_data m ->
  exists h' m' M2, transpose h m = Ok (h', m') /\ denotes h' m2 r c M2 /\ forall i j i' j', 0 <= i < r -> 0 <= j < c -> 0 <= i' < r -> 0 <= j' < c -> i' * c + j' = j * r + i -> M2 i' j' = M i j.
Proof.
  intros D Hc D2 E. destruct (transpose_ok h m r c M D Hc) as (h' & m' & E1 & _ & _ & _ & l & HA & HL1 & HL2). exists h', m', (fun i j => default 0%Qc (l @ (i * c + j))). split; [done|]. destruct D2 as (Hr & _ & R1 & R2 & _). split.
  - split; [done|]. split; [lia|]. split; [done|]. split; [done|]. exists l. split; [by rewrite E|]. apply rows_fun; lia.
  - intros i j i' j' Hi Hj Hi' Hj' Ek. rewrite Ek. by rewrite HL2.
Qed.
