(** Runs of equal values. *)
From Coq Require Import QArith ZifyBool ZifyNat.
From Verif Require Import Base DataArray ArrLib StdModel StdProofs FillLib RenumSpec RenumProofs IndexSpec IndexProofs3 CellTable UmModel UmSpec UmProofs UmProofs2 UmProofs8 TyModel TySpec.
Local Open Scope Z_scope.

Fixpoint runs (l : list Z) : list (Z * Z) :=
  match l with
  | [] => []
  | x :: r => match runs r with [] => [(x, 1)] | (y, n) :: q => if x =? y then (y, n + 1) :: q else (x, 1) :: (y, n) :: q end
  end.
Definition expand (g : list (Z * Z)) : list Z := concat ((fun p => replicate (Z.to_nat (p.2)) (p.1)) <$> g).
Definition size (g : list (Z * Z)) : Z := zlen (expand g).
(** Positive lengths, neighbours with different values. *)
Fixpoint proper_runs (g : list (Z * Z)) : Prop :=
  match g with [] => True | (x, n) :: r => 1 <= n /\ match r with [] => True | (y, _) :: _ => x <> y end /\ proper_runs r end.
Lemma runs_ok l : expand (runs l) = l /\ proper_runs (runs l).
Proof.
  induction l as [|x l [IH1 IH2]]; [done|]. simpl. destruct (runs l) as [|(y, n) q] eqn:E.
  - unfold expand in IH1. simpl in IH1. subst l. split; [reflexivity|]. simpl. lia.
  - cbn [proper_runs] in IH2. destruct IH2 as (Hn & Hd & Hq). destruct (Z.eqb_spec x y) as [->|Hx].
    + split; [|cbn [proper_runs]; split; [lia|done]]. unfold expand in *. rewrite fmap_cons in *. cbn [concat fst snd] in *. rewrite <- IH1. replace (Z.to_nat (n + 1)) with (S (Z.to_nat n)) by lia. done.
    + split; [|cbn [proper_runs]; split; [lia|done]]. unfold expand in *. rewrite fmap_cons. cbn [concat fst snd]. rewrite IH1. done.
Qed.
Lemma expand_app a b : expand (a ++ b) = expand a ++ expand b.
Proof. unfold expand. rewrite fmap_app, concat_app. done. Qed.
Lemma expand_cons t n b : expand ((t, n) :: b) = replicate (Z.to_nat n) t ++ expand b.
Proof. done. Qed.
Lemma size_app a b : size (a ++ b) = size a + size b.
Proof. unfold size. rewrite expand_app, zlen_app. done. Qed.
Lemma size_one t n : 0 <= n -> size [(t, n)] = n.
Proof. intros H. unfold size. rewrite expand_cons. change (expand []) with (@nil Z). rewrite app_nil_r. rewrite zlen_replicate. lia. Qed.
Lemma proper_app a b : proper_runs (a ++ b) -> proper_runs a /\ proper_runs b.
Proof.
  induction a as [|(x, n) a IH]; [done|]. rewrite <- app_comm_cons. cbn [proper_runs]. intros (H1 & H2 & H3). destruct (IH H3) as [Ha Hb]. split; [|done]. split; [done|]. split; [|done].
  destruct a as [|(y, k) a]; [done|]. done.
Qed.
Lemma proper_adj a s k t n b : proper_runs (a ++ (s, k) :: (t, n) :: b) -> s <> t.
Proof. intros H. apply proper_app in H as [_ H]. cbn [proper_runs] in H. tauto. Qed.
Section At.
Variables (l : list Z) (pre : list (Z * Z)) (t n : Z) (post : list (Z * Z)).
Hypothesis E : runs l = pre ++ (t, n) :: post.
Lemma run_pos : 1 <= n.
Proof. destruct (runs_ok l) as [_ H]. rewrite E in H. apply proper_app in H as [_ H]. cbn [proper_runs] in H. tauto. Qed.
Lemma run_split : l = expand pre ++ replicate (Z.to_nat n) t ++ expand post.
Proof. destruct (runs_ok l) as [H _]. rewrite E, expand_app, expand_cons in H. done. Qed.
Lemma run_in k : size pre <= k < size pre + n -> l @ k = Some t.
Proof.
  intros Hk. pose proof run_pos. rewrite run_split. unfold size in *. rewrite zlook_app_r by lia. rewrite zlook_app_l by (rewrite zlen_replicate; lia). apply zlook_replicate; lia.
Qed.
Lemma run_size : 0 <= size pre /\ size pre + n <= zlen l.
Proof. pose proof run_pos. unfold size. pose proof (zlen_nonneg (expand pre)). pose proof (zlen_nonneg (expand post)). rewrite run_split at 1. rewrite !zlen_app, zlen_replicate. lia. Qed.
Lemma run_end : size pre + n < zlen l -> exists x, l @ (size pre + n) = Some x /\ x <> t.
Proof.
  intros H. pose proof run_pos. pose proof run_split as Hsp. pose proof E as E'. destruct post as [|(x, k) q].
  { rewrite Hsp in H. unfold size in H. rewrite !zlen_app, zlen_replicate in H. change (expand []) with (@nil Z) in H. rewrite zlen_nil in H. lia. }
  exists x. split; [|intros ->; destruct (runs_ok l) as [_ Hp]; rewrite E' in Hp; apply proper_adj in Hp; done].
  assert (1 <= k). { destruct (runs_ok l) as [_ Hp]. rewrite E' in Hp. apply proper_app in Hp as [_ Hp]. cbn [proper_runs] in Hp. tauto. }
  rewrite Hsp, expand_cons. unfold size. rewrite zlook_app_r by lia. rewrite zlook_app_r by (rewrite zlen_replicate; lia). rewrite zlen_replicate. rewrite zlook_app_l by (rewrite zlen_replicate; lia). apply zlook_replicate; lia.
Qed.
Lemma run_before : pre <> [] -> exists x, l @ (size pre - 1) = Some x /\ x <> t.
Proof.
  intros H. pose proof run_split as Hsp. pose proof run_pos. pose proof E as E'. destruct (exists_last H) as (q & (x, k) & ->). exists x. 
  assert (1 <= k). { destruct (runs_ok l) as [_ Hp]. rewrite E', <- app_assoc in Hp. apply proper_app in Hp as [_ Hp]. cbn [app proper_runs] in Hp. tauto. }
  split; [|intros ->; destruct (runs_ok l) as [_ Hp]; rewrite E', <- app_assoc in Hp; apply proper_adj in Hp; done].
  rewrite Hsp, expand_app, size_app, size_one by lia. unfold size. rewrite <- !app_assoc. rewrite zlook_app_r by lia. rewrite zlook_app_l by (rewrite expand_cons, zlen_app, zlen_replicate; pose proof (zlen_nonneg (expand [])); lia). rewrite expand_cons. rewrite zlook_app_l by (rewrite zlen_replicate; lia). apply zlook_replicate; lia.
Qed.
Lemma run_take : take (Z.to_nat (size pre)) l = expand pre.
Proof. rewrite run_split at 1. unfold size. rewrite take_app_alt; [done|]. unfold zlen. lia. Qed.
End At.

(** * Types of stored cells *)
Section Stored.
Variables (cells : list cell) (conn connI : list Z).
Hypothesis Hsky : skyline (pk <$> cells) conn connI.
Lemma typeAt_ok i t : kinds cells @ i = Some t -> typeAt conn connI i = Ok t.
Proof.
  unfold kinds. rewrite zlook_fmap. destruct (cells @ i) as [c|] eqn:Ec; [|done]. intros [= <-]. destruct (cell_at cells conn connI i c Hsky Ec) as (a & E1 & _ & Ha & _ & P & R & -> & HP).
  unfold typeAt. rewrite (rd_ok _ _ _ E1). cbn [bind]. apply rd_ok. rewrite zlook_app_r by lia. rewrite HP, Z.sub_diag. done.
Qed.
Lemma zlen_kinds : zlen (kinds cells) = zlen cells.
Proof. unfold kinds. apply zlen_fmap. Qed.
Lemma findType_ok p i nb : 0 <= i <= nb -> nb = zlen cells -> exists j, findType p conn connI i nb = Ok j /\ i <= j <= nb /\ (forall k t, i <= k < j -> kinds cells @ k = Some t -> p t = false) /\
  (j < nb -> exists t, kinds cells @ j = Some t /\ p t = true).
Proof.
  intros Hi Hnb. unfold findType. replace (nb <? i) with false by lia. cbn [ubif].
  assert (W : wp (forZ i nb (fun j '(r, found) => if (found : bool) then Ok (r, found) else let* t := typeAt conn connI j in Ok (if p t then (j, true) else (r, false))) (nb, false))
    (fun s => i <= s.1 <= nb /\ (forall k t, i <= k < s.1 -> kinds cells @ k = Some t -> p t = false) /\ (s.1 < nb -> exists t, kinds cells @ s.1 = Some t /\ p t = true)) False).
  { apply (wp_forZ (fun j '(r, found) => if (found : bool) then i <= r < nb /\ (forall k t, i <= k < r -> kinds cells @ k = Some t -> p t = false) /\ (exists t, kinds cells @ r = Some t /\ p t = true)
      else r = nb /\ forall k t, i <= k < j -> kinds cells @ k = Some t -> p t = false)); [lia| | |].
    - split; [done|]. intros; lia.
    - intros j [r f] Hj. destruct f; [intros H; exact H|]. intros [-> H]. destruct (zlook_lt (kinds cells) j) as [t Ht]; [rewrite zlen_kinds; lia|]. rewrite (typeAt_ok _ _ Ht). cbn [bind]. destruct (p t) eqn:Ep.
      + simpl. split; [lia|]. split; [done|]. eauto.
      + simpl. split; [done|]. intros k u Hk Hu. destruct (decide (k = j)) as [->|]; [congruence|]. apply (H k u); [lia|done].
    - intros [r f] H. destruct f; simpl; [destruct H as (H1 & H2 & H3); split; [lia|]; split; [done|]; intros _; done|]. destruct H as [-> H]. split; [lia|]. split; [done|]. lia. }
  apply wp_ok in W as ([r f] & -> & H1 & H2 & H3). exists r. done.
Qed.
Lemma findOther_ok pre t n post : runs (kinds cells) = pre ++ (t, n) :: post -> findOther conn connI (size pre + 1) (zlen cells) t = Ok (size pre + n).
Proof.
  intros E. pose proof (run_pos _ _ _ _ _ E). pose proof (run_size _ _ _ _ _ E) as Hs. rewrite zlen_kinds in Hs. unfold findOther.
  destruct (findType_ok (fun x => negb (x =? t)) (size pre + 1) (zlen cells)) as (j & -> & Hj & H1 & H2); [lia|done|]. f_equal.
  destruct (Z.lt_trichotomy j (size pre + n)) as [L|[L|L]]; [|done|].
  - destruct H2 as (u & Hu & Hp); [lia|]. rewrite (run_in _ _ _ _ _ E) in Hu by lia. injection Hu as <-. lia.
  - destruct (run_end _ _ _ _ _ E) as (x & Hx & Hn); [rewrite zlen_kinds; lia|]. specialize (H1 _ _ ltac:(split; [|exact L]; lia) Hx). lia.
Qed.
Lemma run_type pre t n post : runs (kinds cells) = pre ++ (t, n) :: post -> typeAt conn connI (size pre) = Ok t.
Proof. intros E. apply typeAt_ok. apply (run_in _ _ _ _ _ E). pose proof (run_pos _ _ _ _ _ E). lia. Qed.
End Stored.
(** The loop on the runs. *)
Lemma wp_onRuns {St} (l : list Z) (P : list (Z * Z) -> St -> Prop) (Q : option Z * St -> Prop) T body s :
  P [] s ->
  (forall pre t n post s, runs l = pre ++ (t, n) :: post -> P pre s -> wp (body (size pre) s) (fun r => match r.1 with Some j => j = size pre + n /\ P (pre ++ [(t, n)]) r.2 | None => Q (None, r.2) end) T) ->
  (forall s, P (runs l) s -> Q (Some (zlen l), s)) ->
  wp (onRuns (zlen l) body s) Q T.
Proof.
  intros H0 Hstep Hend. unfold onRuns.
  apply (wp_whileM (fun s => match s.1 with Some i => exists pre post, runs l = pre ++ post /\ i = size pre /\ P pre s.2 | None => Q (None, s.2) end) (fun s => match s.1 with Some i => Z.to_nat (zlen l - i) | None => O end)).
  - exists [], (runs l). done.
  - simpl. lia.
  - intros [[i|] st]; simpl; [|intros H; exact H]. intros (pre & post & E & -> & HP). destruct (runs_ok l) as [Hex Hpr]. destruct post as [|(t, n) post].
    + rewrite app_nil_r in E. subst pre. assert (size (runs l) = zlen l) as -> by (unfold size; rewrite Hex; done). replace (negb (zlen l =? zlen l)) with false by lia. cbn. apply Hend. done.
    + pose proof (run_pos _ _ _ _ _ E). pose proof (run_size _ _ _ _ _ E). replace (negb (size pre =? zlen l)) with true by lia. cbn [wp].
      eapply wp_mono; [apply (Hstep pre t n post st E HP)| |done]. intros [[j|] s'].
      * simpl. intros [-> HP']. split; [|lia]. exists (pre ++ [(t, n)]), post. rewrite <- app_assoc. split; [done|]. split; [|done]. rewrite size_app, size_one by lia. done.
      * simpl. intros HQ. split; [done|]. pose proof (run_size _ _ _ _ _ E). lia.
Qed.
