(** Proofs for C31 (round trip of the components) and C54 (selection of components, repetition). *)
From Verif Require Import Base DataArray ArrLib IndexSpec FillLib RenumSpec RenumProofs IndexProofs4 LayoutSpec LayoutModel LayoutProofs LayoutProofs2.
From Coq Require Import ZifyBool ZifyNat.

Section Expl.
  Context {A : Type}.
  Implicit Types d : da A.

  Lemma vec_wf (l : list A) : da_wf (vec l).
  Proof. split; [done|]. exists (zlen l). split; [apply zlen_nonneg|]. simpl. lia. Qed.
  Lemma omap_Some {X Y} (f : X -> Y) (l : list X) : omap id ((fun x => Some (f x)) <$> l) = f <$> l.
  Proof. induction l as [|x l IH]; [done|]. rewrite !fmap_cons. simpl. f_equal. done. Qed.
  Lemma zsum_ones (l : list (list A)) : zsum (da_nc <$> (vec <$> l)) = zlen l.
  Proof. induction l as [|x l IH]; [done|]. rewrite !fmap_cons. change (zsum (da_nc (vec x) :: (da_nc <$> (vec <$> l)))) with (1 + zsum (da_nc <$> (vec <$> l))). rewrite IH. unfold zlen; simpl; lia. Qed.
  Lemma row_look (cols : list (list A)) n i j col : (forall c, c ∈ cols -> zlen c = n) -> 0 <= i < n -> cols @ j = Some col ->
    concat ((fun d => tuple d i) <$> (vec <$> cols)) @ j = col @ i.
  Proof.
    intros Hn Hi Hj. assert (Hnt : forall c, c ∈ cols -> 0 <= i < da_nt (vec c)) by (intros c Hc; rewrite da_nt_vec, (Hn c) by done; done).
    rewrite <- list_fmap_compose. replace j with (j * 1 + 0) by lia. rewrite (zlook_concat _ _ 1 j col); [|..|done|lia].
    - unfold compose. rewrite zlook_tuple; [simpl; f_equal; lia|apply vec_wf|apply Hnt; apply elem_of_zlook; eauto|simpl; lia].
    - intros c Hc. unfold compose. rewrite zlen_tuple; [done|apply vec_wf|auto].
  Qed.
  Lemma melded_look (cols : list (list A)) n i j col : (forall c, c ∈ cols -> zlen c = n) -> 0 <= i < n -> cols @ j = Some col ->
    melded (vec <$> cols) n @ (i * zlen cols + j) = col @ i.
  Proof.
    intros Hn Hi Hj. apply zlook_Some_lt in Hj as Hb. unfold melded. rewrite (zlook_concat _ _ (zlen cols) i i); [|..|apply zlook_seqZ; lia|done].
    - apply (row_look cols n); done.
    - intros k Hk. apply elem_of_seqZ in Hk. rewrite <- zsum_ones. apply (zlen_row _ n); [|lia]. intros d Hd. apply elem_of_list_fmap in Hd as (c & -> & Hc).
      split; [apply vec_wf|]. rewrite da_nt_vec. auto.
  Qed.
  Lemma Meld_cols (cols : list (list A)) n : cols <> [] -> (forall c, c ∈ cols -> zlen c = n) ->
    Meld ((fun c => Some (vec c)) <$> cols) = Ok (zlen cols, cells (melded (vec <$> cols) n)).
  Proof.
    intros Hne Hn. rewrite (Meld_ok _ n); rewrite ?(omap_Some vec).
    - rewrite zsum_ones. done.
    - destruct cols; done.
    - intros d Hd. apply elem_of_list_fmap in Hd as (c & -> & Hc). split; [apply vec_wf|]. split; [done|]. rewrite da_nt_vec. auto.
  Qed.
  Lemma zlen_melded_cols (cols : list (list A)) n : 0 <= n -> (forall c, c ∈ cols -> zlen c = n) -> zlen (melded (vec <$> cols) n) = n * zlen cols.
  Proof.
    intros H0 Hn. rewrite (zlen_melded _ n), zsum_ones; [done| |lia]. intros d Hd. apply elem_of_list_fmap in Hd as (c & -> & Hc).
    split; [apply vec_wf|]. rewrite da_nt_vec. auto.
  Qed.
  Lemma explode_meld d : da_wf d -> da_alloc d = true -> 1 <= da_nc d ->
    exists cols : list (list A), explodeComponents d = Ok (cells <$> cols) /\ Meld ((fun c => Some (vec c)) <$> cols) = Ok (da_nc d, cells (da_vals d)).
  Proof.
    intros Hwf Ha Hc. destruct (da_wf_len d Hwf) as (Hl & Hn & _). destruct (explode_ok d Hwf Ha) as (cols & He & Hlc & Hv). exists cols. split; [done|].
    assert (Hcn : forall c, c ∈ cols -> zlen c = da_nt d) by (intros c Hx; apply elem_of_zlook in Hx as [j Hj]; apply (Hv j c Hj)).
    rewrite (Meld_cols cols (da_nt d)) by (done || (intros ->; unfold zlen in Hlc; simpl in Hlc; lia)). rewrite Hlc. f_equal. f_equal. f_equal.
    apply (flat_ext (da_nc d) (da_nt d)); [lia|rewrite zlen_melded_cols by done; congruence|done|]. intros i j Hi Hj. destruct (zlook_lt cols j) as [col Hcol]; [lia|].
    rewrite <- Hlc. rewrite (melded_look cols (da_nt d) i j col) by done. rewrite Hlc. apply (Hv j col); done.
  Qed.
  Lemma meld_explode (cols : list (list A)) n : cols <> [] -> (forall c, c ∈ cols -> zlen c = n) ->
    exists r : list A, Meld ((fun c => Some (vec c)) <$> cols) = Ok (zlen cols, cells r) /\ explodeComponents (DA true (zlen cols) r) = Ok (cells <$> cols).
  Proof.
    intros Hne Hn. assert (H0 : 0 <= n). { destruct cols as [|c cols]; [done|]. rewrite <- (Hn c) by left. apply zlen_nonneg. }
    assert (Hz : 1 <= zlen cols) by (destruct cols as [|c cols]; [done|unfold zlen; simpl; lia]).
    exists (melded (vec <$> cols) n). split; [apply Meld_cols; done|]. pose proof (zlen_melded_cols cols n H0 Hn) as Hlm.
    set (D := DA true (zlen cols) (melded (vec <$> cols) n)). assert (Hwf : da_wf D) by (split; [simpl; lia|]; exists n; done).
    destruct (explode_ok D Hwf) as (k & -> & Hlk & Hv); [done|]. f_equal. f_equal. assert (Hnt : da_nt D = n) by (apply da_nt_mul; [lia|done|done]).
    rewrite Hnt in Hv. change (da_nc D) with (zlen cols) in *. apply zlook_ext_lt; [done|]. intros j Hj. destruct (zlook_lt k j Hj) as [a Hka]. rewrite Hka.
    destruct (zlook_lt cols j) as [col Hcol]; [lia|]. rewrite Hcol. f_equal. destruct (Hv j a Hka) as [Hla Hva]. assert (zlen col = n) by (apply Hn, elem_of_zlook; eauto).
    apply zlook_ext_lt; [congruence|]. intros i Hi. rewrite Hva by lia. apply (melded_look cols n i j col); [done|lia|done].
  Qed.

  Lemma meldWith_wp d e : da_wf d -> da_wf e -> wp (meldWith d e)
    (fun '(c, ret) => (da_alloc d = true /\ da_alloc e = true /\ da_nt d = da_nt e) /\ c = da_nc d + da_nc e /\
       ret = cells (concat ((fun i => tuple d i ++ tuple e i) <$> seqZ 0 (da_nt d))))
    (unallocated d \/ unallocated e \/ da_nt d <> da_nt e).
  Proof.
    intros Hwd Hwe. destruct (da_wf_len d Hwd) as (Hld & Hnd & Hcd). destruct (da_wf_len e Hwe) as (Hle & Hne & Hce).
    unfold meldWith, checkAllocated. apply wp_ifthrow; [destruct (da_alloc d); [done|auto]|]. intros Ha. apply wp_ifthrow; [destruct (da_alloc e); [done|auto]|]. intros Hb.
    apply wp_ifthrow; [lia|]. intros Hn. set (n := da_nt d) in *. set (c := da_nc d + da_nc e). set (g := fun i => tuple d i ++ tuple e i).
    assert (Hg : forall i, 0 <= i < n -> zlen (g i) = c) by (intros i Hi; unfold g; rewrite zlen_app, !zlen_tuple by (done || lia); done).
    apply wp_bind. apply (wp_forZ (fun i '(ret, w) => ret = (Some <$> concat (g <$> seqZ 0 i)) ++ malloc A (n * c - i * c) /\ w = i * c)); [done| | |].
    - split; [rewrite Z.sub_0_r; done|done].
    - intros i [ret w] Hi [-> ->]. assert (Hk : zlen (concat (g <$> seqZ 0 i)) = i * c).
      { rewrite (zlen_concat_c _ _ c); [rewrite zlen_seqZ, Z.max_r by lia; done|]. intros x Hx. apply elem_of_seqZ in Hx. apply Hg. lia. }
      apply wp_bind. apply wp_fill_copy; [nia|lia|nia|nia|done|]. apply wp_bind. apply wp_fill_copy; [nia|lia|nia|nia|rewrite zlen_app, zlen_sub by nia; lia|].
      cbn [wp]. rewrite seqZ_app_r by lia. rewrite (fmap_app g), concat_app. change (g <$> [0 + i]) with [g (0 + i)]. cbn [concat]. rewrite app_nil_r. split; [|unfold c; lia].
      assert (Hgi : g (0 + i) = sub (da_vals d) (i * da_nc d) (i * da_nc d + da_nc d) ++ sub (da_vals e) (i * da_nc e) (i * da_nc e + da_nc e)) by (unfold g; rewrite !tuple_sub, Z.add_0_l; done).
      rewrite Hgi. rewrite <- app_assoc. f_equal. f_equal. unfold c. lia.
    - intros [ret w] [-> _]. simpl. split; [|split; [done|apply fill_done; lia]]. destruct (da_alloc d); [|done]. destruct (da_alloc e); [|done]. repeat split; lia.
  Qed.
  Lemma meldWith_ok d e : da_wf d -> da_wf e -> da_alloc d = true -> da_alloc e = true -> da_nt d = da_nt e ->
    meldWith d e = Ok (da_nc d + da_nc e, cells (concat ((fun i => tuple d i ++ tuple e i) <$> seqZ 0 (da_nt d)))).
  Proof.
    intros Hwd Hwe Ha Hb Hn. pose proof (meldWith_wp d e Hwd Hwe) as H. destruct (meldWith d e) as [[c r]| | |]; simpl in H; try done.
    - destruct H as (_ & -> & ->). done.
    - intuition congruence.
  Qed.
  Lemma meldWith_throw d e : da_wf d -> da_wf e -> (meldWith d e = Throw <-> unallocated d \/ unallocated e \/ da_nt d <> da_nt e).
  Proof.
    intros Hwd Hwe. pose proof (meldWith_wp d e Hwd Hwe) as H. destruct (meldWith d e) as [[c r]| | |]; simpl in H; try done. intuition congruence.
  Qed.

  (** changeNbOfComponents *)
  Lemma change_wp d m x : da_wf d -> 0 <= m -> wp (changeNbOfComponents d m x)
    (fun ret => da_alloc d = true /\ exists r, ret = cells r /\ holds r (da_nt d) m (fun i j => if j <? da_nc d then da_vals d @ (i * da_nc d + j) else Some x)) (unallocated d).
  Proof.
    intros Hwf Hm. destruct (da_wf_len d Hwf) as (Hl & Hn & Hc). unfold changeNbOfComponents, checkAllocated.
    apply wp_ifthrow; [destruct (da_alloc d); done|]. intros Ha. apply wp_bind. apply wp_alloc; [done|done|]. set (n := da_nt d) in *.
    set (v := fun i j => if j <? da_nc d then da_vals d @ (i * da_nc d + j) else Some x). set (dim := Z.min (da_nc d) m).
    set (P := fun (w : Z) ret => exists k, zlen k = w /\ ret = (Some <$> k) ++ malloc A (n * m - w) /\
      forall a b, 0 <= a -> 0 <= b < m -> a * m + b < w -> k @ (a * m + b) = v a b).
    assert (Hstep : forall i j y k, 0 <= i < n -> 0 <= j < m -> v i j = Some y -> zlen k = i * m + j ->
      (forall a b, 0 <= a -> 0 <= b < m -> a * m + b < i * m + j -> k @ (a * m + b) = v a b) ->
      wp (wrc ((Some <$> k) ++ malloc A (n * m - (i * m + j))) (m * i + j) y) (P (i * m + (j + 1))) (unallocated d)).
    { intros i j y k Hi Hj Hy Hk Hv. apply wp_fill; [nia|lia|]. exists (k ++ [y]). rewrite zlen_app. change (zlen [y]) with 1. split; [lia|].
      split; [f_equal; f_equal; lia|]. intros a b Ha' Hb Hab. destruct (Z.eqb_spec (a * m + b) (i * m + j)) as [E|E].
      - destruct (flat_inj m a b i j) as [-> ->]; [done..|]. rewrite Hy. rewrite zlook_app_r by lia. rewrite Hk, Z.sub_diag. done.
      - rewrite zlook_app_l by lia. apply Hv; lia. }
    apply (wp_forZ (fun i => P (i * m))); [done| | |].
    - exists []. split; [done|]. split; [replace (n * m - 0 * m) with (m * n) by lia; done|]. intros; nia.
    - intros i ret Hi HP. apply wp_bind. apply (wp_forZ (fun j => P (i * m + j))); [lia|rewrite Z.add_0_r; done| |].
      + intros j ret' Hj (k & Hk & -> & Hv). apply wp_bind. apply wp_rd; [nia|]. intros y Hy. apply Hstep; [done|lia| |done|done].
        unfold v. replace (j <? da_nc d) with true by lia. done.
      + intros ret' HP'. apply (wp_forZ (fun j => P (i * m + j))); [lia|done| |].
        * intros j ret2 Hj (k & Hk & -> & Hv). apply Hstep; [done|lia| |done|done]. unfold v. replace (j <? da_nc d) with false by lia. done.
        * intros s H'. replace ((i + 1) * m) with (i * m + m) by lia. done.
    - intros ret (k & Hk & -> & Hv). split; [destruct (da_alloc d); done|]. exists k. split; [apply fill_done; lia|]. split; [done|]. intros i j Hi Hj. apply Hv; [lia|done|nia].
  Qed.
  Lemma change_ok d m x : da_wf d -> 0 <= m -> da_alloc d = true ->
    exists r, changeNbOfComponents d m x = Ok (cells r) /\ holds r (da_nt d) m (fun i j => if j <? da_nc d then da_vals d @ (i * da_nc d + j) else Some x).
  Proof.
    intros Hwf Hm Ha. pose proof (change_wp d m x Hwf Hm) as H. destruct (changeNbOfComponents d m x) as [r| | |]; simpl in H; try done; [|congruence].
    destruct H as (_ & k & -> & H). eauto.
  Qed.

  Lemma keep_wp d ids : da_wf d -> (forall c, c ∈ ids -> 0 <= c) -> wp (keepSelectedComponents d ids)
    (fun ret => (da_alloc d = true /\ forall c, c ∈ ids -> c < da_nc d) /\ exists r, ret = cells r /\
       holds r (da_nt d) (zlen ids) (fun i j => match ids @ j with Some c => da_vals d @ (i * da_nc d + c) | None => None end))
    (unallocated d \/ exists c, c ∈ ids /\ da_nc d <= c).
  Proof.
    intros Hwf H0. destruct (da_wf_len d Hwf) as (Hl & Hn & Hc). unfold keepSelectedComponents, checkAllocated.
    apply wp_ifthrow; [destruct (da_alloc d); [done|auto]|]. intros Ha. rewrite check_all. destruct (existsb _ ids) eqn:E1; [|cbn [bind]].
    { simpl. apply existsb_elem in E1 as (c & Hcc & Hx). right. exists c. split; [done|lia]. }
    pose proof (existsb_false _ _ E1) as E1'. clear E1. pose proof (zlen_nonneg ids) as Hz. apply wp_bind. apply wp_alloc; [done|done|].
    eapply (wp_bind' _ _ _ _ _). 
    - apply (wp_grid (fun i j => let* c := rd ids j in rd (da_vals d) (i * da_nc d + c))
        (fun i j => match ids @ j with Some c => da_vals d @ (i * da_nc d + c) | None => None end)); [done|done|lia|].
      intros i j Hi Hj. destruct (zlook_lt ids j Hj) as [c Hcj]. rewrite Hcj, (rd_ok _ _ _ Hcj). cbn [bind]. assert (Hce : c ∈ ids) by (apply elem_of_zlook; eauto).
      specialize (E1' c Hce). specialize (H0 c Hce). cbv beta in E1'. destruct (zlook_lt (da_vals d) (i * da_nc d + c)) as [x Hx]; [nia|]. exists x. split; [done|]. apply rd_ok. done.
    - intros [w ret] (r & -> & Hr). cbn [wp]. split; [|eauto]. split; [destruct (da_alloc d); done|]. intros c Hce. specialize (E1' c Hce). cbv beta in E1'. lia.
  Qed.
  Lemma keep_ok d ids : da_wf d -> da_alloc d = true -> (forall c, c ∈ ids -> 0 <= c < da_nc d) ->
    exists r, keepSelectedComponents d ids = Ok (cells r) /\ holds r (da_nt d) (zlen ids) (fun i j => match ids @ j with Some c => da_vals d @ (i * da_nc d + c) | None => None end).
  Proof.
    intros Hwf Ha Hi. pose proof (keep_wp d ids Hwf ltac:(intros c Hc; apply Hi; done)) as H. destruct (keepSelectedComponents d ids) as [r| | |]; simpl in H; try done.
    - destruct H as (_ & k & -> & H). eauto.
    - destruct H as [?|(c & Hc & ?)]; [congruence|]. specialize (Hi c Hc). lia.
  Qed.
  Lemma keep_throw d ids : da_wf d -> (forall c, c ∈ ids -> 0 <= c) -> (keepSelectedComponents d ids = Throw <-> unallocated d \/ exists c, c ∈ ids /\ da_nc d <= c).
  Proof.
    intros Hwf H0. pose proof (keep_wp d ids Hwf H0) as H. destruct (keepSelectedComponents d ids) as [r| | |]; simpl in H; try done. split; [done|].
    destruct H as ((? & Hc) & _). intros [?|(c & Hcc & ?)]; [congruence|]. specialize (Hc c Hcc). lia.
  Qed.

  (** setSelectedComponents *)
  Lemma set_wp d a ids : da_wf d -> da_wf a -> (forall c, c ∈ ids -> 0 <= c) -> wp (setSelectedComponents d (Some a) ids)
    (fun r => (da_alloc d = true /\ da_alloc a = true /\ zlen ids = da_nc a /\ forall c, c ∈ ids -> c < da_nc d) /\
       zlen r = zlen (da_vals d) /\ forall i c, 0 <= i < da_nt d -> 0 <= c < da_nc d ->
         (forall k, i < da_nt a -> last_pos ids c k -> r @ (i * da_nc d + c) = da_vals a @ (i * da_nc a + k)) /\
         (da_nt a <= i \/ c ∉ ids -> r @ (i * da_nc d + c) = da_vals d @ (i * da_nc d + c)))
    (unallocated d \/ unallocated a \/ zlen ids <> da_nc a \/ exists c, c ∈ ids /\ da_nc d <= c).
  Proof.
    intros Hwf Hwa H0. destruct (da_wf_len d Hwf) as (Hl & Hn & Hc). destruct (da_wf_len a Hwa) as (Hla & Hna & Hca). unfold setSelectedComponents, checkAllocated.
    apply wp_ifthrow; [destruct (da_alloc d); [done|auto]|]. intros Hd. apply wp_ifthrow; [destruct (da_alloc a); [done|auto]|]. intros Ha.
    apply wp_ifthrow; [intros; right; right; left; lia|]. intros Hz. rewrite check_all. destruct (existsb _ ids) eqn:E1; [|cbn [bind]].
    { simpl. apply existsb_elem in E1 as (c & Hcc & Hx). right; right; right. exists c. split; [done|lia]. }
    pose proof (existsb_false _ _ E1) as E1'. clear E1. assert (Hrange : forall c, c ∈ ids -> 0 <= c < da_nc d) by (intros c Hce; specialize (E1' c Hce); specialize (H0 c Hce); cbv beta in E1'; lia).
    clear E1'. apply wp_bind.
    set (m := da_nc a) in *. set (nc := da_nc d) in *. assert (Hzm : zlen ids = m) by lia. rewrite Hzm.
    (* cell (i,c) after the turns of tuples < I and of the first J components of tuple I *)
    set (P := fun I J '(r, ac) => ac = I * m + J /\ zlen r = zlen (da_vals d) /\ forall i c, 0 <= i < da_nt d -> 0 <= c < nc ->
      (forall k, i < I -> last_pos ids c k -> r @ (i * nc + c) = da_vals a @ (i * m + k)) /\
      (forall k, i = I -> last_pos (take (Z.to_nat J) ids) c k -> r @ (i * nc + c) = da_vals a @ (i * m + k)) /\
      (I < i \/ (i = I /\ c ∉ take (Z.to_nat J) ids) \/ c ∉ ids -> r @ (i * nc + c) = da_vals d @ (i * nc + c))).
    apply (wp_forZ (fun i => P i 0)); [lia| | |].
    - split; [lia|]. split; [done|]. intros i c Hi Hcc. split; [intros; lia|]. split; [|done]. intros k _ [Hk _]. change (@nil Z @ k = Some c) in Hk. rewrite zlook_nil in Hk. done.
    - intros I s HI HP. apply (wp_forZ (fun j => P I j)); [lia|done| |].
      + intros J [r ac] HJ (-> & Hlr & Hv). apply wp_bind. apply wp_rd; [nia|]. intros x Hx. apply wp_bind. apply wp_rd; [lia|]. intros c' Hc'.
        assert (Hce : c' ∈ ids) by (apply elem_of_zlook; eauto). specialize (Hrange c' Hce). apply wp_bind. apply wp_wr; [rewrite Hlr, Hl; nia|]. cbn [wp].
        split; [lia|]. split; [rewrite zlen_zset; done|]. intros i c Hi Hcc. destruct (Hv i c Hi Hcc) as (V1 & V2 & V3).
        assert (Hlt : zlen (take (Z.to_nat J) ids) = J) by (rewrite zlen_take; lia).
        rewrite zlook_zset by (rewrite Hlr, Hl; nia). rewrite (take_succ ids J c' Hc').
        destruct (Z.eqb_spec (i * nc + c) (nc * I + c')) as [E|E].
        * destruct (flat_inj nc i c I c') as [-> ->]; [lia|lia|lia|]. split; [intros; lia|]. split.
          -- intros k _ Hk. pose proof (last_pos_unique _ _ _ _ Hk (last_pos_snoc_same _ _)) as ->. rewrite Hlt, <- Hx. done.
          -- intros [?|[[_ Hno]|Hno]]; [lia| |done]. exfalso; apply Hno. apply elem_of_app. right. left.
        * split; [done|]. assert (Hne : i = I -> c <> c') by (intros -> ->; lia). split.
          -- intros k -> Hk. apply V2; [done|]. eapply last_pos_snoc_ne; [|done]. auto.
          -- intros Hor. apply V3. destruct Hor as [?|[[-> Hno]|?]]; [auto| |auto]. right; left. split; [done|]. intros Hin. apply Hno. apply elem_of_app. auto.
      + intros [r ac] (-> & Hlr & Hv). split; [lia|]. split; [done|]. intros i c Hi Hcc. destruct (Hv i c Hi Hcc) as (V1 & V2 & V3).
        rewrite take_ge in V2, V3 by (unfold zlen in Hzm; lia). split; [|split].
        * intros k Hk Hlp. destruct (decide (i = I)); [apply V2; done|apply V1; [lia|done]].
        * intros k _ [Hk _]. change (@nil Z @ k = Some c) in Hk. rewrite zlook_nil in Hk. done.
        * intros Hor. apply V3. destruct Hor as [?|[[-> ?]|?]]; [left; lia|left; lia|auto].
    - intros [r ac] (_ & Hlr & Hv). cbn [wp]. split.
      { destruct (da_alloc d); [|done]. destruct (da_alloc a); [|done]. split; [done|]. split; [done|]. split; [done|]. intros c Hce. apply Hrange. done. }
      split; [done|]. intros i c Hi Hcc. destruct (Hv i c Hi Hcc) as (V1 & V2 & V3). split.
      + intros k Hk Hlp. apply V1; [lia|done].
      + intros [?|?]; apply V3; [|auto]. destruct (decide (Z.min (da_nt d) (da_nt a) = i)) as [<-|]; [|left; lia]. right; left. split; [done|]. simpl. intros Hin; inversion Hin.
  Qed.
  Lemma set_ok d a ids : da_wf d -> da_wf a -> da_alloc d = true -> da_alloc a = true -> zlen ids = da_nc a -> (forall c, c ∈ ids -> 0 <= c < da_nc d) ->
    exists r, setSelectedComponents d (Some a) ids = Ok r /\ zlen r = zlen (da_vals d) /\ forall i c, 0 <= i < da_nt d -> 0 <= c < da_nc d ->
         (forall k, i < da_nt a -> last_pos ids c k -> r @ (i * da_nc d + c) = da_vals a @ (i * da_nc a + k)) /\
         (da_nt a <= i \/ c ∉ ids -> r @ (i * da_nc d + c) = da_vals d @ (i * da_nc d + c)).
  Proof.
    intros Hwf Hwa Hd Ha Hz Hi. pose proof (set_wp d a ids Hwf Hwa ltac:(intros c Hc; apply Hi; done)) as H. destruct (setSelectedComponents d (Some a) ids) as [r| | |]; simpl in H; try done.
    - destruct H as (_ & H). eauto.
    - destruct H as [?|[?|[?|(c & Hc & ?)]]]; [congruence..|]. specialize (Hi c Hc). lia.
  Qed.
  Lemma set_throw d a ids : da_wf d -> da_wf a -> (forall c, c ∈ ids -> 0 <= c) ->
    (setSelectedComponents d (Some a) ids = Throw <-> unallocated d \/ unallocated a \/ zlen ids <> da_nc a \/ exists c, c ∈ ids /\ da_nc d <= c).
  Proof.
    intros Hwf Hwa H0. pose proof (set_wp d a ids Hwf Hwa H0) as H. destruct (setSelectedComponents d (Some a) ids) as [r| | |]; simpl in H; try done. split; [done|].
    destruct H as ((? & ? & ? & Hc) & _). intros [?|[?|[?|(c & Hcc & ?)]]]; [congruence..|]. specialize (Hc c Hcc). lia.
  Qed.

  (** Repetition *)
  Lemma dupEach_wp d t : wp (duplicateEachTupleNTimes d t)
    (fun ret => (da_alloc d = true /\ da_nc d = 1 /\ 1 <= t) /\ exists r, ret = cells r /\ holds r (da_nt d) t (fun i _ => da_vals d @ i))
    (unallocated d \/ da_nc d <> 1 \/ t < 1).
  Proof.
    unfold duplicateEachTupleNTimes, checkAllocated. apply wp_ifthrow; [destruct (da_alloc d); [done|auto]|]. intros Ha. apply wp_ifthrow; [lia|]. intros Hc. apply wp_ifthrow; [lia|]. intros Ht.
    assert (Hnt : da_nt d = zlen (da_vals d)) by (apply da_nt_one; lia). pose proof (zlen_nonneg (da_vals d)). apply wp_bind. apply wp_alloc; [nia|lia|].
    eapply (wp_mono _ _ _ False); [apply wp_fillGrid; [lia|lia|lia|]|..].
    - intros i j Hi Hj. lia.
    - intros ret (r & -> & Hr). split; [|eauto]. destruct (da_alloc d); [|done]. repeat split; lia.
    - done.
  Qed.
  Lemma dupEach_ok d t : da_alloc d = true -> da_nc d = 1 -> 1 <= t -> exists r, duplicateEachTupleNTimes d t = Ok (cells r) /\ holds r (da_nt d) t (fun i _ => da_vals d @ i).
  Proof.
    intros Ha Hc Ht. pose proof (dupEach_wp d t) as H. destruct (duplicateEachTupleNTimes d t) as [r| | |]; simpl in H; try done.
    - destruct H as (_ & k & -> & H). eauto.
    - exfalso. destruct H as [?|[?|?]]; [congruence|done|lia].
  Qed.
  Lemma dupEach_throw d t : duplicateEachTupleNTimes d t = Throw <-> unallocated d \/ da_nc d <> 1 \/ t < 1.
  Proof.
    pose proof (dupEach_wp d t) as H. destruct (duplicateEachTupleNTimes d t) as [r| | |]; simpl in H; try done. split; [done|].
    destruct H as ((? & ? & ?) & _). intros [?|[?|?]]; [congruence|done|lia].
  Qed.
  Lemma dup_ok d t : da_wf d -> da_alloc d = true -> 0 <= t -> duplicateNTimes d t = Ok (cells (concat (replicate (Z.to_nat t) (da_vals d)))).
  Proof.
    intros Hwf Ha Ht. destruct (da_wf_len d Hwf) as (Hl & Hn & Hc). unfold duplicateNTimes, checkAllocated. rewrite Ha. cbn [negb ifthrow]. apply wp_ok_eq.
    apply wp_bind. apply wp_alloc; [nia|done|]. apply wp_bind. set (e := zlen (da_vals d)) in *.
    assert (Hk : forall i, 0 <= i -> zlen (concat (replicate (Z.to_nat i) (da_vals d))) = i * e).
    { intros i Hi. rewrite zlen_concat, fmap_replicate. fold e. revert i Hi. apply natlike_ind; [done|]. intros i Hi IH. rewrite Z2Nat.inj_succ by lia. simpl.
      change (zsum (e :: replicate (Z.to_nat i) e)) with (e + zsum (replicate (Z.to_nat i) e)). rewrite IH. lia. }
    apply (wp_forZ (fun i '(ret, w) => ret = (Some <$> concat (replicate (Z.to_nat i) (da_vals d))) ++ malloc A (t * e - i * e) /\ w = i * e)); [done| | |].
    - split; [|done]. replace (t * e - 0 * e) with (da_nc d * (t * da_nt d)) by nia. done.
    - intros i [ret w] Hi [-> ->]. apply wp_bind. pose proof (zlen_nonneg (da_vals d)). fold e in H. apply wp_fill_copy; [lia|done|done|nia|rewrite Hk by lia; done|]. cbn [wp]. split; [|lia].
      change (zlen (da_vals d)) with e. unfold e at 1. rewrite sub_full. replace (Z.to_nat (i + 1)) with (Z.to_nat i + 1)%nat by lia. rewrite replicate_add, concat_app. simpl. rewrite app_nil_r.
      f_equal. f_equal. lia.
    - intros [ret w] [-> _]. cbn [wp]. apply fill_done. lia.
  Qed.
End Expl.
