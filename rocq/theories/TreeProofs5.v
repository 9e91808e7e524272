From Coq Require Import QArith Qabs Lqa ZifyBool ZifyNat.
From Verif Require Import Base DataArray ArrLib IndexSpec FillLib TreeModel TreeSpec TreeProofs TreeProofs2 TreeProofs3 TreeProofs4.
Local Open Scope Z_scope.

Section Classes.
Context (n limit : Z) (N : Z -> Z -> Prop) (us : list Z) (ess : Z -> list Z).
Hypothesis Hes : forall i, 0 <= i < n -> NoDup (ess i) /\ forall e, e ∈ ess i <-> 0 <= e < n /\ N i e.
Hypothesis Hsort : StronglySorted Z.lt us.
Hypothesis Hus : forall j, j ∈ us <-> 0 <= j < n /\ ~ cut limit N us j.
Hypothesis Hor : forall j, 0 <= j < n -> j ∈ us \/ cut limit N us j.
Hypothesis Hsym : forall i j, 0 <= i < n -> 0 <= j < n -> N i j -> N j i.

Local Notation others := (others limit ess).
Local Notation group := (group limit ess).
Lemma us_range h : h ∈ us -> 0 <= h < n.
Proof. intros H. apply Hus in H. tauto. Qed.
Lemma in_groups g : g ∈ flat_map group us <-> exists h, h ∈ us /\ others h <> [] /\ g = h :: others h.
Proof.
  rewrite elem_of_list_In, in_flat_map. split.
  - intros (h & Hh & Hg). exists h. apply elem_of_list_In in Hh. unfold TreeProofs3.group in Hg. destruct (others h) as [|o os] eqn:E; [done|]. cbn in Hg. destruct Hg as [Hg|[]]. done.
  - intros (h & Hh & Ho & ->). exists h. split; [by apply elem_of_list_In|]. unfold TreeProofs3.group. destruct (others h) as [|o os] eqn:E; [done|]. by left.
Qed.
Lemma elem_oth h e : h ∈ us -> e ∈ others h <-> 0 <= e < n /\ limit <= e /\ e <> h /\ N h e.
Proof. intros H. apply (elem_others n limit N ess Hes). by apply us_range. Qed.
Lemma heads_sorted l : StronglySorted Z.lt l -> forall a b g g', a < b -> flat_map group l @ a = Some g -> flat_map group l @ b = Some g' -> exists h h', g @ 0 = Some h /\ g' @ 0 = Some h' /\ h < h'.
Proof.
  clear Hes Hsort Hus Hor Hsym N.
  assert (HH : forall l g, g ∈ flat_map group l -> exists h, g @ 0 = Some h /\ h ∈ l).
  { clear. intros l g H. apply elem_of_list_In, in_flat_map in H as (h & Hh & Hg). exists h. apply elem_of_list_In in Hh. split; [|done]. unfold TreeProofs3.group in Hg. destruct (others h); [done|]. destruct Hg as [<-|[]]. done. }
  induction l as [|u l IH]; intros HS a b g g' Hab Ha Hb; [change (flat_map group []) with (@nil (list Z)) in Ha; by rewrite zlook_nil in Ha|]. apply StronglySorted_inv in HS as [S1 S2]. cbn [flat_map] in Ha, Hb. rewrite zlook_app in Ha, Hb.
  pose proof (zlook_neg (group u) a).
  destruct (Z.ltb_spec a (zlen (group u))) as [La|La], (Z.ltb_spec b (zlen (group u))) as [Lb|Lb].
  - exfalso. pose proof (zlook_Some_lt _ _ _ Ha). pose proof (zlook_Some_lt _ _ _ Hb). unfold TreeProofs3.group in *. destruct (others u); cbn in *; unfold zlen in *; cbn in *; lia.
  - apply zlook_elem in Hb. apply HH in Hb as (h' & Hh' & Hin). unfold TreeProofs3.group in Ha. destruct (others u) as [|o os]; [by rewrite zlook_nil in Ha|].
    apply zlook_elem, elem_of_list_singleton in Ha as ->. exists u, h'. split; [done|]. split; [done|]. rewrite Forall_forall in S2. by apply S2.
  - lia.
  - apply (IH S1 (a - zlen (group u)) (b - zlen (group u)) g g'); [lia|done|done].
Qed.
Lemma groups_spec : coincident_groups n limit N (flat_map group us).
Proof.
  split; [|split].
  - intros g Hg. apply in_groups in Hg as (h & Hh & Ho & ->). pose proof (us_range h Hh) as Hr. split.
    + apply NoDup_cons. split; [rewrite elem_oth by done; tauto|]. by apply (others_nodup n limit N ess Hes).
    + exists h, (others h). split; [done|]. split; [done|]. split; [done|]. intros e. by apply elem_oth.
  - by apply heads_sorted.
  - intros j Hj Hlim. split.
    + intros (g & Hg & Hjg). apply in_groups in Hg as (h & Hh & Ho & ->). pose proof (us_range h Hh) as Hr. apply elem_of_cons in Hjg as [->|Hjg].
      * destruct (others h) as [|o os] eqn:E; [done|]. assert (H : o ∈ others h) by (rewrite E; set_solver). apply elem_oth in H as (H1 & H2 & H3 & H4); [|done]. exists o. split; [done|]. split; [done|]. by apply Hsym.
      * apply elem_oth in Hjg as (H1 & H2 & H3 & H4); [|done]. exists h. split; [done|]. split; [lia|done].
    + intros (i & Hi & Hij & HN). destruct (Hor j Hj) as [Hju|(_ & h & Hh & Hhj & HNh)].
      * destruct (decide (limit <= i)) as [Hli|Hli].
        -- assert (i ∈ others j). { apply elem_oth; [done|]. split; [done|]. split; [done|]. split; [done|]. by apply Hsym. }
           exists (j :: others j). split; [|set_solver]. apply in_groups. exists j. split; [done|]. split; [|done]. intros E. rewrite E in H. set_solver.
        -- exfalso. assert (i ∈ us). { destruct (Hor i Hi) as [H|(H & _)]; [done|lia]. } apply Hus in Hju as [_ Hju]. apply Hju. split; [done|]. exists i. split; [done|]. split; [lia|done].
      * assert (j ∈ others h). { apply elem_oth; [done|]. split; [done|]. split; [done|]. split; [lia|done]. }
        exists (h :: others h). split; [|set_solver]. apply in_groups. exists h. split; [done|]. split; [|done]. intros E. rewrite E in H. set_solver.
Qed.
Lemma NoDup_flat_map' (f : Z -> list Z) l : NoDup l -> (forall h, h ∈ l -> NoDup (f h)) -> (forall h h' x, h ∈ l -> h' ∈ l -> h <> h' -> x ∈ f h -> x ∉ f h') -> NoDup (flat_map f l).
Proof.
  induction l as [|u l IH]; intros H1 H2 H3; [constructor|]. cbn. apply NoDup_cons in H1 as [H0 H1]. apply NoDup_app. split; [apply H2; set_solver|]. split.
  - intros x Hx Hx'. apply elem_of_list_In, in_flat_map in Hx' as (h & Hh & Hxh). apply elem_of_list_In in Hh, Hxh. apply (H3 u h x); [set_solver|set_solver| |done|done]. intros ->. done.
  - apply IH; [done|intros; apply H2; set_solver|]. intros h h' x ? ?. apply H3; set_solver.
Qed.
Lemma sorted_nodup l : StronglySorted Z.lt l -> NoDup l.
Proof. induction l as [|x l IH]; intros H; [constructor|]. apply StronglySorted_inv in H as [H1 H2]. apply NoDup_cons. split; [|auto]. intros H. rewrite Forall_forall in H2. specialize (H2 x H). lia. Qed.
Hypothesis Htrans : transitive_on n N.
Hypothesis Hlimit : limit <= 0.
Lemma oth_later h e : h ∈ us -> e ∈ others h -> h < e /\ e ∉ us.
Proof.
  intros Hh He. pose proof (us_range h Hh) as Hr. apply elem_oth in He as (He & Hl & Hne & HN); [|done].
  assert (Hlt : h < e).
  { destruct (Z.lt_total h e) as [H|[H|H]]; [done|lia|]. exfalso. apply Hus in Hh as [_ Hc]. apply Hc. destruct (Hor e He) as [Hu|(_ & h' & Hh' & Hlt & HN')].
    - split; [lia|]. exists e. split; [done|]. split; [done|]. by apply Hsym.
    - split; [lia|]. exists h'. split; [done|]. split; [lia|]. pose proof (us_range h' Hh'). apply Htrans with e; try done. by apply Hsym. }
  split; [done|]. intros Hu. apply Hus in Hu as [_ Hc]. apply Hc. split; [lia|]. exists h. done.
Qed.
Lemma groups_classes : classes n N (flat_map group us).
Proof.
  assert (HG : forall h h' x, h ∈ us -> h' ∈ us -> h < h' -> x ∈ h :: others h -> x ∉ h' :: others h').
  { intros h h' x Hh Hh' Hlt Hx Hx'. apply elem_of_cons in Hx as [->|Hx], Hx' as [Hx'|Hx']; [lia| |subst x|].
    - destruct (oth_later h' h Hh' Hx') as [? ?]. lia.
    - destruct (oth_later h h' Hh Hx) as [? ?]. done.
    - apply elem_oth in Hx as (Hx & _ & _ & HN), Hx' as (_ & _ & _ & HN'); [|done|done]. pose proof (us_range h Hh). pose proof (us_range h' Hh'). apply Hus in Hh' as [_ Hc]. apply Hc. split; [lia|]. exists h.
      split; [done|]. split; [done|]. apply Htrans with x; try done. by apply Hsym. }
  split; [|split].
  - assert (E : concat (flat_map group us) = flat_map (fun h => concat (group h)) us). { clear. induction us as [|h l IH]; [done|]. cbn. by rewrite concat_app, IH. }
    rewrite E. assert (Hc : forall h x, x ∈ concat (group h) -> x ∈ h :: others h). { intros h x. unfold TreeProofs3.group. destruct (others h); cbn; [set_solver|]. rewrite app_nil_r. done. }
    apply NoDup_flat_map'; [by apply sorted_nodup| |].
    + intros h Hh. unfold TreeProofs3.group. pose proof (others_nodup n limit N ess Hes h (us_range h Hh)) as Hnd. destruct (others h) as [|o os] eqn:Eo; [constructor|]. cbn. rewrite app_nil_r. apply NoDup_cons. split; [|done].
      rewrite <- Eo, elem_oth by done. tauto.
    + intros h h' x Hh Hh' Hne Hx%Hc Hx'%Hc. destruct (Z.lt_total h h') as [H|[H|H]]; [|done|]; [by apply (HG h h' x)|by apply (HG h' h x)].
  - intros i j Hij. split.
    + intros (g & Hg & Hi & Hj). apply in_groups in Hg as (h & Hh & _ & ->). pose proof (us_range h Hh) as Hr.
      assert (HX : forall x, x ∈ h :: others h -> 0 <= x < n /\ (x = h \/ N h x)). { intros x [->|Hx]%elem_of_cons; [tauto|]. apply elem_oth in Hx; [tauto|done]. }
      destruct (HX i Hi) as [Ri Ni], (HX j Hj) as [Rj Nj]. split; [done|]. split; [done|]. destruct Ni as [->|Ni], Nj as [->|Nj]; [done|done|by apply Hsym|]. apply Htrans with h; try done. by apply Hsym.
    + intros (Hi & Hj & HN).
      assert (HX : exists h, h ∈ us /\ i ∈ h :: others h /\ j ∈ h :: others h).
      { assert (HX : exists h, h ∈ us /\ (h = i \/ N h i)). { destruct (Hor i Hi) as [H|(_ & h & Hh & _ & H)]; [exists i; tauto|exists h; tauto]. }
        destruct HX as (h & Hh & Hx). pose proof (us_range h Hh) as Hr. assert (HNj : h = j \/ N h j). { destruct Hx as [->|Hx]; [by right|]. right. apply Htrans with i; done. }
        exists h. split; [done|]. split.
        - destruct (decide (i = h)) as [->|]; [set_solver|]. apply elem_of_cons. right. apply elem_oth; [done|]. split; [done|]. split; [lia|]. split; [done|]. destruct Hx; [lia|done].
        - destruct (decide (j = h)) as [->|]; [set_solver|]. apply elem_of_cons. right. apply elem_oth; [done|]. split; [done|]. split; [lia|]. split; [done|]. destruct HNj; [lia|done]. }
      destruct HX as (h & Hh & H1 & H2). exists (h :: others h). split; [|done]. apply in_groups. exists h. split; [done|]. split; [|done]. intros E. rewrite E in *. set_solver.
  - intros g Hg. apply in_groups in Hg as (h & Hh & Ho & ->). exists h, (others h). split; [done|]. split; [done|]. intros e He. by apply oth_later.
Qed.
End Classes.

(** ** Doubles *)
Lemma near_sym v dim eps i j : near v dim i eps v j -> near v dim j eps v i.
Proof. intros H k Hk. specialize (H k Hk). rewrite Qabs_Qminus. done. Qed.
Lemma near_refl v dim eps i : near v dim i eps v i.
Proof. intros k Hk. setoid_replace (at_ v dim i k - at_ v dim i k)%Q with 0%Q by ring. apply Qabs_nonneg. Qed.
Lemma common_data d prec limit : da_alloc d = true -> da_wf d -> 1 <= da_nc d <= 4 -> exists ess us,
  (forall i, 0 <= i < da_nt d -> NoDup (ess i) /\ forall e, e ∈ ess i <-> 0 <= e < da_nt d /\ near (da_vals d) (da_nc d) i prec (da_vals d) e) /\
  StronglySorted Z.lt us /\ (forall j, j ∈ us <-> 0 <= j < da_nt d /\ ~ cut limit (fun i j => near (da_vals d) (da_nc d) i prec (da_vals d) j) us j) /\
  (forall j, 0 <= j < da_nt d -> j ∈ us \/ cut limit (fun i j => near (da_vals d) (da_nc d) i prec (da_vals d) j) us j) /\
  findCommonTuples d prec limit = Ok (concat (flat_map (group limit ess) us), psums (zlen <$> flat_map (group limit ess) us)).
Proof.
  intros Ha Wd Hc. pose proof (wf_points d Wd ltac:(lia)) as HP. unfold findCommonTuples, checkAllocated. rewrite Ha. replace ((da_nc d <? 1) || (4 <? da_nc d)) with false by lia. cbn [ifthrow].
  destruct (BBTreePts_ok _ _ _ prec HP) as (t & Et & Pt & Gt). rewrite Et. cbn [bind].
  set (ess := fun i => List.filter (says (close (da_vals d) (da_nc d) prec (drop (Z.to_nat (i * da_nc d)) (da_vals d)))) (elts t)). exists ess.
  assert (Hess : forall i, 0 <= i < da_nt d -> NoDup (ess i) /\ forall e, e ∈ ess i <-> 0 <= e < da_nt d /\ near (da_vals d) (da_nc d) i prec (da_vals d) e).
  { intros i Hi. pose proof (drop_pt _ _ _ i HP Hi) as Hp. destruct (result_ok _ _ _ t (close_ok _ _ _ prec _ HP Hp) Pt) as [N1 N2]. split; [done|]. intros e. unfold ess. rewrite N2, near_drop by lia. split; intros [? ?]; (split; [done|by apply near_sym]). }
  destruct (groups_ok (da_nt d) limit _ ess Hess (fun i => getPointsAround (da_vals d) (da_nc d) prec t (drop (Z.to_nat (i * da_nc d)) (da_vals d)) [])) as (us & S1 & S2 & S3 & S4).
  - apply HP.
  - intros i Hi. pose proof (drop_pt _ _ _ i HP Hi) as Hp. rewrite (getPts_ok _ _ _ _ _ _ HP Hp Gt). reflexivity.
  - intros. apply near_refl.
  - exists us. split; [exact Hess|]. split; [done|]. split; [exact S2|]. split; [exact S3|]. exact S4.
Qed.
Lemma common_ok d prec limit : da_alloc d = true -> da_wf d -> 1 <= da_nc d <= 4 -> exists gs c cI, findCommonTuples d prec limit = Ok (c, cI) /\ skyline gs c cI /\
  coincident_groups (da_nt d) limit (fun i j => near (da_vals d) (da_nc d) i prec (da_vals d) j) gs /\
  (limit <= 0 -> transitive_on (da_nt d) (fun i j => near (da_vals d) (da_nc d) i prec (da_vals d) j) -> classes (da_nt d) (fun i j => near (da_vals d) (da_nc d) i prec (da_vals d) j) gs).
Proof.
  intros Ha Wd Hc. destruct (common_data d prec limit Ha Wd Hc) as (ess & us & H1 & H2 & H3 & H4 & E). eexists _, _, _. split; [exact E|]. split; [split; [done|apply psums_ok]|]. split.
  - apply groups_spec; try done. intros. by apply near_sym.
  - intros Hl Ht. eapply groups_classes; try done. intros. by apply near_sym.
Qed.
Lemma common_throw d prec limit : da_wf d -> findCommonTuples d prec limit = Throw <-> ~ (da_alloc d = true /\ 1 <= da_nc d <= 4).
Proof.
  intros Wd. split.
  - intros E [Ha Hc]. destruct (common_ok d prec limit Ha Wd Hc) as (? & ? & ? & E' & _). congruence.
  - intros H. unfold findCommonTuples, checkAllocated. destruct (da_alloc d); [|done]. destruct ((da_nc d <? 1) || (4 <? da_nc d)) eqn:Eb; cbn [ifthrow]; [done|]. exfalso. apply H. split; [done|lia].
Qed.

(** ** Integers *)
Lemma equal_sym v dim i j : equal_tuples v dim i v j -> equal_tuples v dim j v i.
Proof. intros H k Hk. by rewrite H. Qed.
Lemma equal_trans v dim n : transitive_on n (fun i j => equal_tuples v dim i v j).
Proof. intros i j k _ _ _ H1 H2 x Hx. rewrite H1 by done. by apply H2. Qed.
Lemma equal_zat v dim n i j : points v dim n -> 0 <= i < n -> 0 <= j < n -> equal_tuples v dim i v j <-> forall k, 0 <= k < dim -> zat v dim i k = zat v dim j k.
Proof.
  intros (Hd & Hn & Hl) Hi Hj. unfold equal_tuples, zat. split; intros H k Hk; specialize (H k Hk); [by rewrite H|].
  destruct (zlook_lt v (i * dim + k)) as [x Hx]; [split; nia|]. destruct (zlook_lt v (j * dim + k)) as [y Hy]; [split; nia|]. rewrite Hx, Hy in *. cbn in H. by subst.
Qed.
Lemma commonInt_ok d limit : da_alloc d = true -> da_wf d -> 1 <= da_nc d <= 4 -> exists gs c cI, findCommonTuplesInt d limit = Ok (c, cI) /\ skyline gs c cI /\
  coincident_groups (da_nt d) limit (fun i j => equal_tuples (da_vals d) (da_nc d) i (da_vals d) j) gs /\
  (limit <= 0 -> classes (da_nt d) (fun i j => equal_tuples (da_vals d) (da_nc d) i (da_vals d) j) gs).
Proof.
  intros Ha Wd Hc. pose proof (wf_points d Wd ltac:(lia)) as HP. unfold findCommonTuplesInt, checkAllocated. rewrite Ha. replace ((da_nc d <? 1) || (4 <? da_nc d)) with false by lia. cbn [ifthrow].
  destruct (BBTreeDiscrete_ok _ _ _ HP) as (t & Et & Pt & Gt). rewrite Et. cbn [bind].
  set (ess := fun i => List.filter (says (same (da_vals d) (da_nc d) (drop (Z.to_nat (i * da_nc d)) (da_vals d)))) (elts t)).
  assert (Hess : forall i, 0 <= i < da_nt d -> NoDup (ess i) /\ forall e, e ∈ ess i <-> 0 <= e < da_nt d /\ equal_tuples (da_vals d) (da_nc d) i (da_vals d) e).
  { intros i Hi. pose proof (drop_pt _ _ _ i HP Hi) as Hp. destruct (result_ok _ _ _ t (same_ok _ _ _ _ HP Hp) Pt) as [N1 N2]. split; [done|]. intros e. unfold ess. rewrite N2.
    split; intros [He H]; (split; [done|]).
    - apply equal_sym, (equal_zat _ _ _ _ _ HP He Hi). intros k Hk. rewrite H by done. apply zat_drop; lia.
    - intros k Hk. rewrite zat_drop by lia. by apply (equal_zat _ _ _ _ _ HP He Hi), Hk; apply equal_sym. }
  destruct (groups_ok (da_nt d) limit _ ess Hess (fun i => getEqualElems (da_vals d) (da_nc d) t (drop (Z.to_nat (i * da_nc d)) (da_vals d)) [])) as (us & S1 & S2 & S3 & S4).
  - apply HP.
  - intros i Hi. pose proof (drop_pt _ _ _ i HP Hi) as Hp. rewrite (getEqual_ok _ _ _ _ _ HP Hp Gt). reflexivity.
  - intros. done.
  - eexists _, _, _. split; [exact S4|]. split; [split; [done|apply psums_ok]|]. split.
    + apply groups_spec; try done. intros. by apply equal_sym.
    + intros Hl. eapply groups_classes; try done; [intros; by apply equal_sym|apply equal_trans].
Qed.
Lemma commonInt_throw d limit : da_wf d -> findCommonTuplesInt d limit = Throw <-> ~ (da_alloc d = true /\ 1 <= da_nc d <= 4).
Proof.
  intros Wd. split.
  - intros E [Ha Hc]. destruct (commonInt_ok d limit Ha Wd Hc) as (? & ? & ? & E' & _). congruence.
  - intros H. unfold findCommonTuplesInt, checkAllocated. destruct (da_alloc d); [|done]. destruct ((da_nc d <? 1) || (4 <? da_nc d)) eqn:Eb; cbn [ifthrow]; [done|]. exfalso. apply H. split; [done|lia].
Qed.
