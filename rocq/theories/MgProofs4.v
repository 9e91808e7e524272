(** AggregateSortedByTypeMeshesOnSameCoords. *)
From Coq Require Import QArith ZifyBool ZifyNat.
From Verif Require Import CellModel Base DataArray ArrLib FillLib StdModel RenumModel RenumSpec RenumProofs PermProofs SetsModel IndexModel IndexSpec SkyModel SkyProofs CellTable UmModel UmSpec UmProofs UmProofs2 UmProofs10 UcModel UcProofs4 TyModel TySpec TyProofs4 TyProofs5 DsProofs4 MgModel MgSpec MgProofs MgProofs2.
Local Open Scope Z_scope.

(** * Positions in lists put one after the other *)
Lemma concat_pos {A} (ls : list (list A)) : forall i x, concat ls @ i = Some x -> exists a l j, ls @ a = Some l /\ l @ j = Some x /\ i = zlen (concat (take (Z.to_nat a) ls)) + j.
Proof.
  induction ls as [|l ls IH]; intros i x Hi; [cbn [concat] in Hi; by rewrite zlook_nil in Hi|]. cbn [concat] in Hi. apply zlook_Some_lt in Hi as Hr. destruct (decide (i < zlen l)) as [Hlt|Hge].
  - rewrite zlook_app_l in Hi by lia. exists 0, l, i. split; [by rewrite zlook_cons|]. split; [done|]. change (zlen (concat (take (Z.to_nat 0) (l :: ls)))) with 0. lia.
  - rewrite zlook_app_r in Hi by lia. destruct (IH _ _ Hi) as (a & l' & j & Ha & Hj & E). apply zlook_Some_lt in Ha as Har. exists (a + 1), l', j. split; [rewrite zlook_cons; replace (a + 1 =? 0) with false by lia; by replace (a + 1 - 1) with a by lia|]. split; [done|].
    replace (Z.to_nat (a + 1)) with (S (Z.to_nat a)) by lia. cbn [take concat]. rewrite zlen_app. lia.
Qed.
Lemma take_le {A} (ls : list (list A)) a b : 0 <= a <= b -> zlen (concat (take (Z.to_nat a) ls)) <= zlen (concat (take (Z.to_nat b) ls)).
Proof. intros H. replace (Z.to_nat b) with (Z.to_nat a + (Z.to_nat b - Z.to_nat a))%nat by lia. rewrite <- (take_drop (Z.to_nat a) (take (Z.to_nat a + (Z.to_nat b - Z.to_nat a)) ls)). rewrite take_take, Nat.min_l by lia. rewrite concat_app, zlen_app. pose proof (zlen_nonneg (concat (drop (Z.to_nat a) (take (Z.to_nat a + (Z.to_nat b - Z.to_nat a)) ls)))). lia. Qed.
Lemma take_next {A} (ls : list (list A)) a l : ls @ a = Some l -> zlen (concat (take (Z.to_nat (a + 1)) ls)) = zlen (concat (take (Z.to_nat a) ls)) + zlen l.
Proof. intros H. apply zlook_Some_lt in H as Hr. rewrite zlook_to_nat in H by lia. replace (Z.to_nat (a + 1)) with (S (Z.to_nat a)) by lia. rewrite (take_S_r _ _ _ H), concat_app, zlen_app. cbn [concat]. rewrite app_nil_r. done. Qed.
Lemma concat_mono {A} (ls : list (list A)) i j a b la lb ja jb (x y : A) : i < j -> ls @ a = Some la -> la @ ja = Some x -> i = zlen (concat (take (Z.to_nat a) ls)) + ja -> ls @ b = Some lb -> lb @ jb = Some y -> j = zlen (concat (take (Z.to_nat b) ls)) + jb -> a <= b.
Proof.
  intros Hij Ha Hja Ei Hb Hjb Ej. destruct (decide (a <= b)) as [|Hn]; [done|]. exfalso. pose proof (take_next ls b lb Hb) as E. apply zlook_Some_lt in Ha as ?. apply zlook_Some_lt in Hb as ?. apply zlook_Some_lt in Hja as ?. apply zlook_Some_lt in Hjb as ?. pose proof (take_le ls (b + 1) a ltac:(lia)). lia.
Qed.
(** * The kinds of runs put one after the other *)
Lemma kinds_runs (ps : list (list cell)) (hs : list cell) : (forall p, p ∈ ps -> exists t : Z, forall c : cell, c ∈ p -> c.1 = t) -> Forall2 (fun p (c : cell) => c ∈ p) ps hs ->
  forall i t, kinds (concat ps) @ i = Some t -> exists a l j, ps @ a = Some l /\ kinds hs @ a = Some t /\ (exists c, l @ j = Some c) /\ i = zlen (concat (take (Z.to_nat a) ps)) + j.
Proof.
  intros Hsame HF i t Hi. unfold kinds in Hi. rewrite zlook_fmap in Hi. destruct (concat ps @ i) as [c|] eqn:Hc; [|done]. injection Hi as <-. destruct (concat_pos _ _ _ Hc) as (a & l & j & Ha & Hj & E). exists a, l, j. split; [done|]. split; [|split; [eauto|done]].
  destruct (F2_at _ _ _ _ _ HF Ha) as (h & Hh & Hin). unfold kinds. rewrite zlook_fmap, Hh. cbn. f_equal. destruct (Hsame l) as [t Ht]; [eapply zlook_elem; exact Ha|]. rewrite (Ht h Hin). symmetry. apply Ht. eapply zlook_elem. exact Hj.
Qed.
Lemma runs_contiguous ps hs : (forall p, p ∈ ps -> exists t : Z, forall c : cell, c ∈ p -> c.1 = t) -> Forall2 (fun p (c : cell) => c ∈ p) ps hs -> contiguous (kinds hs) -> contiguous (kinds (concat ps)).
Proof.
  intros Hsame HF Hc i j k t Hijk Hi Hk. assert (exists u, kinds (concat ps) @ j = Some u) as [u Hj]. { apply zlook_lt. apply zlook_Some_lt in Hi. apply zlook_Some_lt in Hk. lia. }
  destruct (kinds_runs ps hs Hsame HF i t Hi) as (a & la & ja & Ha & Hta & [ca Hca] & Ei). destruct (kinds_runs ps hs Hsame HF j u Hj) as (b & lb & jb & Hb & Htb & [cb Hcb] & Ej). destruct (kinds_runs ps hs Hsame HF k t Hk) as (c & lc & jc & Hcc & Htc & [cc Hccc] & Ek).
  pose proof (concat_mono ps i j a b la lb ja jb ca cb ltac:(lia) Ha Hca Ei Hb Hcb Ej). pose proof (concat_mono ps j k b c lb lc jb jc cb cc ltac:(lia) Hb Hcb Ej Hcc Hccc Ek). rewrite Hj. rewrite <- Htb.
  destruct (decide (a = b)) as [->|]; [done|]. destruct (decide (b = c)) as [->|]; [done|]. apply (Hc a b c t); [lia|done|done].
Qed.
Lemma runs_in_order order ps hs : (forall p, p ∈ ps -> exists t : Z, forall c : cell, c ∈ p -> c.1 = t) -> Forall2 (fun p (c : cell) => c ∈ p) ps hs -> in_order order (kinds hs) -> in_order order (kinds (concat ps)).
Proof.
  intros Hsame HF Ho i j s t p q Hij Hi Hj Hp Hq. destruct (kinds_runs ps hs Hsame HF i s Hi) as (a & la & ja & Ha & Hta & [ca Hca] & Ei). destruct (kinds_runs ps hs Hsame HF j t Hj) as (b & lb & jb & Hb & Htb & [cb Hcb] & Ej).
  pose proof (concat_mono ps i j a b la lb ja jb ca cb Hij Ha Hca Ei Hb Hcb Ej). destruct (decide (a = b)) as [->|]; [|apply (Ho a b s t p q); [lia|done..]]. rewrite Hta in Htb. injection Htb as ->. destruct Hp as [Hp Hp']. destruct Hq as [Hq Hq']. destruct (decide (p <= q)) as [|Hn]; [done|]. exfalso. apply (Hp' q); [|done]. apply zlook_Some_lt in Hq. lia.
Qed.

(** * The runs of the meshes *)
Definition runs_from (rk : Z) (css : list (list cell)) (runs : list (Z * list cell)) : Prop :=
  exists partss, Forall2 cut_by_type css partss /\ runs = concat (imap (fun i parts => (fun p => (rk + Z.of_nat i, p)) <$> parts) partss).
Definition is_run (d : Z) (co : option (da Q)) (s : umesh) (r : Z * list cell) : Prop := stores s r.2 /\ um_dim s = d /\ um_coords s = co.
Definition is_single (d : Z) (co : option (da Q)) (s : umesh) (r : Z * list cell) : Prop := exists c, head r.2 = Some c /\ stores s [c] /\ um_dim s = d /\ um_coords s = co.
Lemma runs_cons rk cs css parts runs : cut_by_type cs parts -> runs_from (rk + 1) css runs -> runs_from rk (cs :: css) (((fun p => (rk, p)) <$> parts) ++ runs).
Proof.
  intros Hc (partss & HF & ->). exists (parts :: partss). split; [by constructor|]. cbn [imap concat]. f_equal; [|f_equal; apply imap_ext; intros i x _; apply list_fmap_ext; intros; unfold compose; f_equal; lia].
  apply list_fmap_ext. intros. f_equal. lia.
Qed.
Lemma inner_ok rk d co (sp : list umesh) parts : 0 <= d -> Forall2 (fun s p => stores s p /\ um_dim s = d /\ um_coords s = co /\ p <> []) sp parts -> forall b c e,
  exists singles, foldM (fun '(m1ssmSingle, ret1, ret2) s =>
        let* singleCell := buildPartOfMySelf s [0] in
        let* n := getNumberOfCells s in
        Ok (m1ssmSingle ++ [singleCell], ret1 ++ [n], ret2 ++ [rk])) sp (b, c, e) = Ok (b ++ singles, c ++ (zlen <$> parts), e ++ ((fun _ => rk) <$> parts)) /\ Forall2 (is_single d co) singles ((fun p => (rk, p)) <$> parts).
Proof.
  intros Hd HF. induction HF as [|s p sp parts (Hs & Hds & Hcs & Hne) HF IH]; intros b c e; [exists []; split; [cbn; by rewrite !app_nil_r|constructor]|]. cbn [foldM]. destruct p as [|c0 p]; [done|].
  destruct (part_ok s (c0 :: p) [0] [c0] Hs) as (s1 & E1 & Hs1 & _ & Hd1 & Hc1); [by repeat constructor|]. unfold buildPartOfMySelf at 1. destruct (stores_get _ _ Hs) as (conn & connI & Hcn & HcI & Hsk).
  unfold getMeshDimension. rewrite Hds. replace (d <? -1) with false by lia. cbn [ifthrow bind]. replace (d =? -1) with false by lia. cbn [negb]. rewrite E1. cbn [bind]. rewrite (numCells_ok _ _ Hs). cbn [bind].
  destruct (IH (b ++ [s1]) (c ++ [zlen (c0 :: p)]) (e ++ [rk])) as (singles & -> & HF2). exists (s1 :: singles). split; [by rewrite <- !app_assoc|]. rewrite fmap_cons. constructor; [|done]. exists c0. split; [done|]. split; [done|]. split; congruence.
Qed.
Lemma outer_ok d co ms css : 0 <= d -> Forall2 (fun m cs => stores m cs /\ um_dim m = d /\ um_coords m = co) ms css -> forall a b c e rk,
  exists sps singles runs, foldM (fun '(m1ssm, m1ssmSingle, ret1, ret2, rk) m =>
      let* d' := getMeshDimension m in
      throw_if negb (d =? d') >>>
      throw_if negb true >>>
      let* sp := splitByType m in
      let* (m1ssmSingle, ret1, ret2) := foldM (fun '(m1ssmSingle, ret1, ret2) s =>
        let* singleCell := buildPartOfMySelf s [0] in
        let* n := getNumberOfCells s in
        Ok (m1ssmSingle ++ [singleCell], ret1 ++ [n], ret2 ++ [rk])) sp (m1ssmSingle, ret1, ret2) in
      Ok (m1ssm ++ sp, m1ssmSingle, ret1, ret2, rk + 1)) ms (a, b, c, e, rk) = Ok (a ++ sps, b ++ singles, c ++ ((fun r => zlen r.2) <$> runs), e ++ (fst <$> runs), rk + zlen ms) /\
    runs_from rk css runs /\ Forall2 (is_run d co) sps runs /\ Forall2 (is_single d co) singles runs.
Proof.
  intros Hd HF. induction HF as [|m cs ms css (Hs & Hdm & Hcm) HF IH]; intros a b c e rk.
  - exists [], [], []. split; [cbn; change (zlen (@nil umesh)) with 0; rewrite !app_nil_r, Z.add_0_r; done|]. split; [exists []; split; [constructor|done]|]. split; constructor.
  - match goal with |- context [foldM ?f (m :: ms) _] => set (F := f) in * end. cbn [foldM]. unfold F at 1. unfold getMeshDimension at 1. rewrite Hdm. replace (d <? -1) with false by lia. cbn [ifthrow bind]. replace (d =? d) with true by lia. cbn [negb ifthrow]. destruct (split_ok m cs Hs ltac:(lia)) as (sp & parts & -> & Hcut & HF2). cbn [bind].
    destruct (inner_ok rk d co sp parts Hd) with (b := b) (c := c) (e := e) as (singles & -> & HFs).
    { destruct Hcut as (_ & Hne & _). assert (Hne' : forall p, p ∈ parts -> p <> []) by (intros p Hp; by apply Hne). clear -HF2 Hne' Hdm Hcm. induction HF2 as [|s p sp parts (? & _ & ? & ?) HF2 IH]; [constructor|]. constructor; [split; [done|]; split; [congruence|]; split; [congruence|]; apply Hne'; left|]. apply IH. intros q Hq. apply Hne'. by right. }
    cbn [bind]. destruct (IH (a ++ sp) (b ++ singles) (c ++ (zlen <$> parts)) (e ++ ((fun _ => rk) <$> parts)) (rk + 1)) as (sps & singles' & runs & -> & Hr & HFr & HFs').
    exists (sp ++ sps), (singles ++ singles'), (((fun p => (rk, p)) <$> parts) ++ runs). split; [|split; [by apply runs_cons|split; [|by apply Forall2_app]]].
    + f_equal. rewrite !fmap_app, <- !list_fmap_compose, <- !app_assoc. rewrite zlen_cons. apply f_equal2; [done|lia].
    + apply Forall2_app; [|done]. apply Forall2_fmap_r. eapply Forall2_impl; [exact HF2|]. intros s p (? & _ & ? & ?). unfold is_run. cbn. split; [done|]. split; congruence.
Qed.
Lemma gather_ok (ms : list (option umesh)) css : Forall2 stores (omap id ms) css -> forall pre, foldM (fun ms2 o =>
    match o with Some m => checkConnectivityFullyDefined m (fun _ _ => Ok (ms2 ++ [m])) | None => Ok ms2 end) ms pre = Ok (pre ++ omap id ms).
Proof.
  revert css. induction ms as [|[m|] ms IH]; intros css HF pre; [cbn; by rewrite app_nil_r| |].
  - cbn [omap list_omap id] in HF |- *. inversion HF as [|? cs ? css' Hs HF']; subst. cbn [foldM]. destruct (stores_get _ _ Hs) as (conn & connI & Hc & HcI & _). unfold checkConnectivityFullyDefined at 1. rewrite Hc, HcI. cbn [bind]. rewrite (IH css' HF'). by rewrite <- app_assoc.
  - cbn [omap list_omap id] in HF |- *. cbn [foldM bind]. by apply (IH css).
Qed.
(** Tuples moved by a permutation. *)
Lemma moved_list {A} (l : list A) p : is_perm (zlen l) p -> exists l', renumber (vec l) p = Ok (DA true 1 (Some <$> l')) /\ zlen l' = zlen l /\ forall i t, p @ i = Some t -> l' @ t = l @ i.
Proof.
  intros Hp. destruct (renumber_ok (vec l) p) as (l' & E & Hl & Hat); [done|apply da_wf_vec|by rewrite da_nt_vec|]. exists l'. split; [done|]. split; [done|]. intros i t Hi. pose proof (Hat i t Hi 0) as H. unfold ij in H. cbn [da_nc da_vals vec] in H. rewrite !Z.mul_1_r, !Z.add_0_r in H. apply zlook_Some_lt in Hi as ?. pose proof (perm_range _ _ _ _ Hp Hi). replace (0 <=? t) with true in H by lia. replace (0 <=? i) with true in H by lia. done.
Qed.
Lemma perm_at n p t : is_perm n p -> 0 <= t < n -> exists i, p @ i = Some t /\ 0 <= i < n.
Proof. intros Hp Ht. assert (Hin : t ∈ p) by (rewrite Hp; apply elem_of_seqZ; lia). apply elem_of_zlook in Hin as [i Hi]. exists i. split; [done|]. apply zlook_Some_lt in Hi. unfold zlen in Hi. rewrite Hp, seqZ_length in Hi. lia. Qed.
Lemma moved_unique {A} (l l1 l2 : list A) p : is_perm (zlen l) p -> zlen l1 = zlen l -> zlen l2 = zlen l -> (forall i t, p @ i = Some t -> l1 @ t = l @ i) -> (forall i t, p @ i = Some t -> l2 @ t = l @ i) -> l1 = l2.
Proof. intros Hp H1 H2 Ha Hb. apply zlook_ext_lt; [lia|]. intros t Ht. destruct (perm_at _ _ t Hp) as (i & Hi & _); [lia|]. by rewrite (Ha i t Hi), (Hb i t Hi). Qed.
Lemma moved_fmap {A B} (f : A -> B) (l l' : list A) (m : list B) p : is_perm (zlen l) p -> zlen l' = zlen l -> zlen m = zlen l -> (forall i t, p @ i = Some t -> l' @ t = l @ i) -> (forall i t, p @ i = Some t -> m @ t = (f <$> l) @ i) -> m = f <$> l'.
Proof. intros Hp H1 H2 Ha Hb. eapply (moved_unique (f <$> l)); [by rewrite zlen_fmap|by rewrite zlen_fmap|by rewrite !zlen_fmap|done|]. intros i t Hi. rewrite !zlook_fmap, (Ha i t Hi). done. Qed.
(** Filling through a permutation. *)
Lemma scatter_ok {A} (l : list A) p : is_perm (zlen l) p -> exists l', forZ 0 (zlen l) (fun i final => let* r := rd p i in let* s := rd l i in wrc final r s) (malloc A (zlen l)) = Ok (Some <$> l') /\ zlen l' = zlen l /\ forall i t, p @ i = Some t -> l' @ t = l @ i.
Proof.
  intros Hp. set (n := zlen l) in *. pose proof (zlen_nonneg l) as Hn. assert (Hlp : zlen p = n) by (unfold zlen; rewrite Hp, seqZ_length; lia). assert (Hnd : NoDup p) by (rewrite Hp; apply NoDup_seqZ).
  match goal with |- context [forZ ?a ?b ?f ?s0] => assert (W : wp (forZ a b f s0) (fun s => zlen s = n /\ forall i t x, p @ i = Some t -> l @ i = Some x -> s @ t = Some (Some x)) False) end.
  { apply (wp_forZ (fun k s => zlen s = n /\ forall i t x, i < k -> p @ i = Some t -> l @ i = Some x -> s @ t = Some (Some x))).
    - lia.
    - split; [rewrite zlen_malloc; lia|]. intros i t x Hi Hpi. apply zlook_Some_lt in Hpi. lia.
    - intros k s Hk (Hs & HI). destruct (zlook_lt p k) as [t Ht]; [lia|]. destruct (zlook_lt l k) as [x Hx]; [lia|]. rewrite (rd_ok _ _ _ Ht). cbn [bind]. rewrite (rd_ok _ _ _ Hx). cbn [bind]. assert (Hr : 0 <= t < n). { apply zlook_elem in Ht. rewrite Hp in Ht. apply elem_of_seqZ in Ht. lia. }
      unfold wrc. rewrite wr_ok by lia. cbn [wp]. split; [by rewrite zlen_zset|]. intros i u y Hi Hpi Hli. rewrite zlook_zset by lia. destruct (Z.eqb_spec u t) as [->|Hne].
      + assert (i = k) as -> by (apply (proj1 (NoDup_zlook p) Hnd i k t); done). congruence.
      + apply (HI i u y); [|done..]. destruct (decide (i = k)) as [->|]; [congruence|lia].
    - intros s (Hs & HI). split; [done|]. intros i t x Hi Hx. apply (HI i t x); [|done..]. apply zlook_Some_lt in Hi. lia. }
  apply wp_ok in W as (s & -> & Hs & HI). destruct (moved_list l p Hp) as (l' & _ & Hl' & Hat). exists l'. split; [|done]. f_equal. apply zlook_ext_lt; [by rewrite zlen_fmap; lia|]. intros t Ht. destruct (perm_at n p t Hp) as (i & Hi & Hri); [lia|]. destruct (zlook_lt l i) as [x Hx]; [lia|]. rewrite (HI i t x Hi Hx), zlook_fmap, (Hat i t Hi), Hx. done.
Qed.
Lemma elem_concat {A} (ls : list (list A)) x : x ∈ concat ls <-> exists l, x ∈ l /\ l ∈ ls.
Proof. rewrite elem_of_list_In, in_concat. split; intros (p & H1 & H2); exists p; rewrite !elem_of_list_In in *; done. Qed.
Lemma run_one css runs : runs_of css runs -> forall r, r ∈ runs -> r.2 <> [] /\ (exists t : Z, forall c : cell, c ∈ r.2 -> c.1 = t) /\ (forall c, c ∈ r.2 -> c ∈ concat css).
Proof.
  intros (partss & HF & ->) r Hr. apply elem_concat in Hr as (l & Hrl & Hl). apply elem_of_lookup_imap in Hl as (i & parts & -> & Hi). apply elem_of_list_fmap in Hrl as (p & -> & Hp). destruct (Forall2_lookup_r _ _ _ _ _ HF Hi) as (cs & Hcs & Hc & Hne & _). destruct (Hne p Hp) as [? ?]. split; [done|]. split; [done|]. intros c Hc'. cbn [snd] in Hc'.
  apply elem_concat. exists cs. split; [|by eapply elem_of_list_lookup_2]. rewrite <- Hc. apply elem_concat. by exists p.
Qed.
Lemma runs_nonempty css runs : runs_of css runs -> concat css <> [] -> runs <> [].
Proof.
  intros (partss & HF & ->) Hne Hn. apply Hne. assert (forall c : cell, c ∉ concat css) as H.
  { intros c Hc. apply elem_concat in Hc as (cs & Hc & Hcs). apply elem_of_list_lookup in Hcs as [i Hi]. destruct (Forall2_lookup_l _ _ _ _ _ HF Hi) as (parts & Hp & Hcut & _). rewrite <- Hcut in Hc. apply elem_concat in Hc as (p & _ & Hpp).
    assert (Hx : (Z.of_nat i, p) ∈ concat (imap (fun i parts => (fun p : list cell => (Z.of_nat i, p)) <$> parts) partss)); [|rewrite Hn in Hx; by apply elem_of_nil in Hx]. apply elem_concat. exists ((fun p : list cell => (Z.of_nat i, p)) <$> parts). split; [apply elem_of_list_fmap; by exists p|]. apply elem_of_lookup_imap. exists i, parts. done. }
  destruct (concat css) as [|c l]; [done|]. exfalso. apply (H c). left.
Qed.
Lemma aggregate_types_ok d co (ms : list (option umesh)) css : 0 <= d -> Forall2 (fun m cs => stores m cs /\ um_dim m = d /\ um_coords m = co) (omap id ms) css -> concat css <> [] -> (forall t, t ∈ kinds (concat css) -> t ∈ MEDMEM_ORDER) ->
  exists m' runs sel, AggregateSortedByTypeMeshesOnSameCoords ms true = Ok (m', (fun r => zlen r.2) <$> sel, fst <$> sel) /\ runs_of css runs /\ moved_runs runs sel /\
    stores m' (concat (snd <$> sel)) /\ typed m' (concat (snd <$> sel)) /\ um_dim m' = d /\ um_coords m' = co /\ contiguous (kinds (concat (snd <$> sel))) /\ in_order MEDMEM_ORDER (kinds (concat (snd <$> sel))).
Proof.
  intros Hd HF Hne Hord. unfold AggregateSortedByTypeMeshesOnSameCoords. rewrite (gather_ok ms css); [|eapply Forall2_impl; [exact HF|]; by intros ? ? (? & _)]. cbn [bind app].
  destruct (omap id ms) as [|m0 rest] eqn:Em; [inversion HF; subst; done|]. assert (Hd0 : um_dim m0 = d) by (inversion HF as [|? ? ? ? (? & ? & ?)]; done). unfold getMeshDimension at 1. rewrite Hd0. replace (d <? -1) with false by lia. cbn [ifthrow bind].
  destruct (outer_ok d co (m0 :: rest) css Hd HF [] [] [] [] 0) as (sps & singles & runs & -> & Hr & HFr & HFs). cbn [bind app]. change (runs_from 0 css runs) with (runs_of css runs) in Hr. clear Em HF m0 rest Hd0. pose proof (run_one css runs Hr) as Hone. pose proof (runs_nonempty css runs Hr Hne) as Hrne.
  assert (exists heads : list cell, Forall2 (fun s c => stores s [c] /\ um_dim s = d /\ um_coords s = co) singles heads /\ Forall2 (fun (r : Z * list cell) c => head r.2 = Some c) runs heads) as (heads & HFh & HFrh).
  { clear -HFs. induction HFs as [|s r singles runs (c & Hc & H) _ (heads & H1 & H2)]; [exists []; split; constructor|]. exists (c :: heads). split; by constructor. }
  assert (Hlr : zlen sps = zlen runs) by (unfold zlen; by rewrite (Forall2_length _ _ _ HFr)). assert (Hlh : zlen heads = zlen runs) by (unfold zlen; by rewrite (Forall2_length _ _ _ HFrh)).
  destruct singles as [|s0 srest]; [inversion HFs; subst; done|]. destruct (on_same_ok d s0 srest ((fun c => [c]) <$> heads)) as (m2 & -> & Hs2 & _); [lia|apply Forall2_fmap_r; eapply Forall2_impl; [exact HFh|]; intros ? ? (? & ? & _); done|]. cbn [bind].
  assert (Eh : concat ((fun c => [c]) <$> heads) = heads) by (clear; induction heads as [|c l IH]; [done|]; rewrite fmap_cons; cbn [concat app]; by rewrite IH). rewrite Eh in Hs2.
  assert (Hhin : forall i r h, runs @ i = Some r -> heads @ i = Some h -> h ∈ r.2). { intros i r h Hi Hh. destruct (F2_at _ _ _ _ _ HFrh Hi) as (h' & Hh' & E). rewrite Hh in Hh'. injection Hh' as <-. destruct r.2; [done|]. injection E as ->. left. }
  destruct (sort_ok m2 heads Hs2) as (m3 & k & selh & -> & _ & _ & _ & _ & (Hk & Hpm & Hmv & Hst) & Hct & Hio).
  { intros t Ht. apply elem_of_list_fmap in Ht as (h & -> & Hh). apply Hord. apply elem_of_list_fmap. exists h. split; [done|]. apply elem_of_zlook in Hh as [i Hi]. destruct (F2_at_r _ _ _ _ _ HFrh Hi) as (r & Hri & E). destruct (Hone r ltac:(eapply zlook_elem; exact Hri)) as (_ & _ & Hin). apply Hin. by eapply Hhin. }
  cbn [bind]. destruct (scatter_ok sps k) as (fin & -> & Hlf & Hfin); [by rewrite Hlr, <- Hlh|]. cbn [bind]. rewrite initialised_ok. cbn [bind]. assert (Hkr : is_perm (zlen runs) k) by (by rewrite <- Hlh).
  destruct (moved_list runs k Hkr) as (sel & _ & Hls & Hsel).
  assert (HFf : Forall2 (is_run d co) fin sel). { apply F2_zlook; [lia|]. intros t s r Hs Hrt. destruct (perm_at _ _ t Hkr) as (i & Hi & _); [apply zlook_Some_lt in Hrt; lia|]. rewrite (Hfin i t Hi) in Hs. rewrite (Hsel i t Hi) in Hrt. destruct (F2_at _ _ _ _ _ HFr Hs) as (r' & Hr' & H). congruence. }
  destruct fin as [|f0 frest]; [inversion HFf; subst; change (zlen (@nil (Z * list cell))) with 0 in Hls; destruct runs; [done|rewrite zlen_cons in Hls; pose proof (zlen_nonneg runs); lia]|].
  destruct (on_same_ok d f0 frest (snd <$> sel)) as (m4 & -> & Hs4 & Ht4 & Hd4 & Hc4); [lia|apply Forall2_fmap_r; eapply Forall2_impl; [exact HFf|]; intros ? ? (? & ? & _); done|]. cbn [bind].
  destruct (moved_list ((fun r : Z * list cell => zlen r.2) <$> runs) k) as (l1 & -> & Hl1 & Hat1); [by rewrite zlen_fmap|]. cbn [bind]. destruct (moved_list (fst <$> runs) k) as (l2 & -> & Hl2 & Hat2); [by rewrite zlen_fmap|]. cbn [bind da_vals]. rewrite !initialised_ok. cbn [bind]. rewrite zlen_fmap in Hl1, Hl2.
  rewrite (moved_fmap (fun r : Z * list cell => zlen r.2) runs sel l1 k) by done. rewrite (moved_fmap fst runs sel l2 k) by done. exists m4, runs, sel. split; [done|]. split; [done|]. split.
  { exists k. split; [done|]. split; [done|]. split; [done|]. intros i j a b t p q Hij Ha Hb Hta Htb Hp Hq. assert (Hkind : forall i r, runs @ i = Some r -> run_type r t -> kinds heads @ i = Some t).
    { intros i' r Hi' (c & Hc & <-). destruct (F2_at _ _ _ _ _ HFrh Hi') as (h & Hh & E). unfold kinds. rewrite zlook_fmap, Hh. cbn. f_equal. destruct (Hone r ltac:(eapply zlook_elem; exact Hi')) as (_ & [t Ht] & _). rewrite (Ht c Hc). apply Ht. by eapply Hhin. }
    apply (Hst i j t p q); [done|by eapply Hkind|by eapply Hkind|done|done]. }
  assert (Hselin : forall r, r ∈ sel -> r ∈ runs). { intros r Hr'. apply elem_of_zlook in Hr' as [t Ht]. destruct (perm_at _ _ t Hkr) as (i & Hi & _); [apply zlook_Some_lt in Ht; lia|]. rewrite (Hsel i t Hi) in Ht. by eapply zlook_elem. }
  assert (Hsame : forall p, p ∈ snd <$> sel -> exists t : Z, forall c : cell, c ∈ p -> c.1 = t) by (intros p Hp; apply elem_of_list_fmap in Hp as (r & -> & Hr'); apply Hone; auto).
  assert (Hlsh : zlen selh = zlen runs) by (rewrite <- Hlh; unfold zlen; by rewrite Hpm).
  assert (HFc : Forall2 (fun p (c : cell) => c ∈ p) (snd <$> sel) selh). { apply F2_zlook; [rewrite zlen_fmap; lia|]. intros t p h Hp Hh. rewrite zlook_fmap in Hp. destruct (sel @ t) as [r|] eqn:Ert; [|done]. injection Hp as <-. destruct (perm_at _ _ t Hkr) as (i & Hi & _); [apply zlook_Some_lt in Ert; lia|]. rewrite (Hsel i t Hi) in Ert. rewrite (Hmv i t Hi) in Hh. by eapply Hhin. }
  split; [done|]. split; [done|]. split; [done|]. split; [rewrite Hc4; by inversion HFf as [|? ? ? ? (? & ? & ?)]|]. split; [by apply (runs_contiguous _ selh)|by apply (runs_in_order _ _ selh)].
Qed.
Lemma runs_empty css runs : runs_of css runs -> concat css = [] -> runs = [].
Proof. intros Hr Hc. destruct runs as [|r runs]; [done|]. destruct (run_one _ _ Hr r) as (Hne & _ & Hin); [left|]. destruct r.2 as [|c l]; [done|]. specialize (Hin c ltac:(left)). rewrite Hc in Hin. by apply elem_of_nil in Hin. Qed.
Lemma aggregate_types_nothing d co (ms : list (option umesh)) css : 0 <= d -> Forall2 (fun m cs => stores m cs /\ um_dim m = d /\ um_coords m = co) (omap id ms) css -> concat css = [] -> AggregateSortedByTypeMeshesOnSameCoords ms true = Throw.
Proof.
  intros Hd HF Hne. unfold AggregateSortedByTypeMeshesOnSameCoords. rewrite (gather_ok ms css); [|eapply Forall2_impl; [exact HF|]; by intros ? ? (? & _)]. cbn [bind app].
  destruct (omap id ms) as [|m0 rest] eqn:Em; [done|]. assert (Hd0 : um_dim m0 = d) by (inversion HF as [|? ? ? ? (? & ? & ?)]; done). unfold getMeshDimension at 1. rewrite Hd0. replace (d <? -1) with false by lia. cbn [ifthrow bind].
  destruct (outer_ok d co (m0 :: rest) css Hd HF [] [] [] [] 0) as (sps & singles & runs & -> & Hr & HFr & HFs). cbn [bind app]. change (runs_from 0 css runs) with (runs_of css runs) in Hr. rewrite (runs_empty css runs Hr Hne) in HFs. inversion HFs. done.
Qed.
Lemma aggregate_types_throw (ms : list (option umesh)) css same : Forall2 stores (omap id ms) css -> (forall m, Some m ∈ ms -> 0 <= um_dim m) -> (forall m, m ∉ omap id ms) \/ same = false \/ (exists m m', Some m ∈ ms /\ Some m' ∈ ms /\ um_dim m <> um_dim m') -> AggregateSortedByTypeMeshesOnSameCoords ms same = Throw.
Proof.
  intros HF Hdim Hor. unfold AggregateSortedByTypeMeshesOnSameCoords. rewrite (gather_ok ms css HF). cbn [bind app]. assert (Hin : forall m, m ∈ omap id ms <-> Some m ∈ ms) by (intros m; rewrite elem_of_list_omap; split; [intros (o & Ho & E); unfold id in E; by subst|intros; by exists (Some m)]).
  assert (Hd2 : forall m, m ∈ omap id ms -> 0 <= um_dim m) by (intros m Hm; by apply Hdim, Hin). destruct (omap id ms) as [|m0 rest] eqn:Em; [done|]. pose proof (Hd2 m0 ltac:(left)) as H0. unfold getMeshDimension at 1. replace (um_dim m0 <? -1) with false by lia. cbn [ifthrow bind].
  destruct Hor as [Hno|[->|Hdiff]]; [exfalso; apply (Hno m0); left| |].
  - cbn [foldM]. unfold getMeshDimension at 1. replace (um_dim m0 <? -1) with false by lia. cbn [ifthrow bind]. rewrite Z.eqb_refl. done.
  - assert (exists m, m ∈ m0 :: rest /\ um_dim m <> um_dim m0) as (m1 & Hm1 & Hne). { destruct Hdiff as (a & b & Ha & Hb & Hab). apply Hin in Ha, Hb. destruct (decide (um_dim a = um_dim m0)); [exists b; split; [done|congruence]|by exists a]. }
    match goal with |- context [foldM ?F (m0 :: rest) _] => assert (G : forall l css, Forall2 stores l css -> (forall m, m ∈ l -> 0 <= um_dim m) -> m1 ∈ l -> forall s, foldM F l s = Throw) end; [|rewrite (G (m0 :: rest) css HF Hd2 Hm1); done].
    clear -Hne. intros l css HF. induction HF as [|m cs l css Hs HF IH]; intros Hd Hm1 [[[[a b] c] e] rk]; [by apply elem_of_nil in Hm1|]. cbn [foldM]. pose proof (Hd m ltac:(left)) as Hdm. unfold getMeshDimension at 1. replace (um_dim m <? -1) with false by lia. cbn [ifthrow bind].
    destruct (Z.eqb_spec (um_dim m0) (um_dim m)) as [E|E]; [|done]. apply elem_of_cons in Hm1 as [->|Hm1]; [congruence|]. cbn [negb ifthrow]. destruct same; [|done]. cbn [negb ifthrow]. destruct (split_ok m cs Hs Hdm) as (sp & parts & -> & Hcut & HF2). cbn [bind].
    destruct (inner_ok rk (um_dim m) (um_coords m) sp parts Hdm) with (b := b) (c := c) (e := e) as (singles & -> & HFs).
    { destruct Hcut as (_ & Hne' & _). assert (Hne2 : forall p, p ∈ parts -> p <> []) by (intros p Hp; by apply Hne'). clear -HF2 Hne2. induction HF2 as [|s p sp parts (? & _ & ? & ?) HF2 IH]; [constructor|]. constructor; [split; [done|]; split; [congruence|]; split; [congruence|]; apply Hne2; left|]. apply IH. intros q Hq. apply Hne2. by right. }
    cbn [bind]. apply IH; [intros; apply Hd; by right|done].
Qed.
Lemma aggregate_types_undefined (ms : list (option umesh)) same m : Some m ∈ ms -> um_conn m = None \/ um_connI m = None -> AggregateSortedByTypeMeshesOnSameCoords ms same = Throw.
Proof.
  intros Hm Hn. unfold AggregateSortedByTypeMeshesOnSameCoords. match goal with |- context [foldM ?F ms _] => assert (G : forall l, Some m ∈ l -> forall s, foldM F l s = Throw) end; [|by rewrite G].
  clear Hm. induction l as [|o l IH]; intros Hl s; [by apply elem_of_nil in Hl|]. cbn [foldM]. apply elem_of_cons in Hl as [<-|Hl].
  - unfold checkConnectivityFullyDefined at 1. destruct Hn as [->| ->]; [by destruct (um_connI m)|done].
  - destruct o as [m'|]; [|cbn [bind]; by apply IH]. unfold checkConnectivityFullyDefined at 1. destruct (um_connI m'); [|done]. destruct (um_conn m'); [|done]. cbn [bind]. by apply IH.
Qed.
