From Verif Require Import Base DataArray ArrLib StdModel SlicesSpec SlicesModel SlicesProofs RenumSpec RenumProofs SearchSpec StdProofs SearchProofs IndexSpec IndexModel FillLib IndexProofs IndexProofs2.
From Coq Require Import ZifyBool ZifyNat.

(** ** PutIntoToSkylineFrmt *)
Lemma zlen_pre {A} (pre : list (list A)) p post : zlen (concat (pre ++ p :: post)) = zlen (concat pre) + zlen p + zlen (concat post).
Proof. rewrite concat_app, zlen_app. simpl. rewrite zlen_app. lia. Qed.
Lemma fmap_snoc {A B} (f : A -> B) l x : f <$> (l ++ [x]) = (f <$> l) ++ [f x].
Proof. rewrite fmap_app. done. Qed.

(** State of the fill loops on the index: the offsets of the packs seen so far. *)
Definition iost (n : Z) (ls : list Z) : list (option Z) := (Some <$> psums ls) ++ malloc Z (n - zlen ls).
Lemma iost_rd n ls : rdc (iost n ls) (zlen ls) = Ok (zsum ls).
Proof. apply rdc_fill, psums_end. Qed.
Lemma iost_wr n ls x p v : zlen ls < n -> p = zlen ls + 1 -> v = zsum ls + x -> wrc (iost n ls) p v = Ok (iost n (ls ++ [x])).
Proof.
  intros Hl -> ->. unfold iost. rewrite wrc_fill by (rewrite ?psums_len; lia). rewrite psums_snoc_eq, zlen_app. change (zlen [x]) with 1. do 3 f_equal. lia.
Qed.
Lemma iost_start n : 0 <= n -> wrc (malloc Z (n + 1)) 0 0 = Ok (iost n []).
Proof. intros. rewrite fill_start. rewrite wrc_fill by (done || lia). unfold iost. do 3 f_equal. change (zlen (@nil Z)) with 0. lia. Qed.
Lemma iost_end ls : iost (zlen ls) ls = Some <$> psums ls.
Proof. unfold iost. apply fill_done. lia. Qed.
(** State of the fill loops on the values. *)
Definition ost {A} (m : Z) (ps : list (list A)) : list (option A) := (Some <$> concat ps) ++ malloc A (m - zlen (concat ps)).
Lemma ost_start A m : malloc A m = ost m [].
Proof. unfold ost. simpl. change (zlen (@nil A)) with 0. rewrite Z.sub_0_r. done. Qed.
Lemma ost_end {A} (ps : list (list A)) m : m = zlen (concat ps) -> ost m ps = Some <$> concat ps.
Proof. intros ->. unfold ost. apply fill_done. lia. Qed.
Lemma ost_copy {A} (m : Z) (ps : list (list A)) src a b p : 0 <= a -> a <= b -> b <= zlen src -> zlen (concat ps) + (b - a) <= m -> p = zlen (concat ps) ->
  copyc src a b (ost m ps) p = Ok (ost m (ps ++ [sub src a b])).
Proof.
  intros. unfold ost. rewrite copyc_fill by lia. rewrite concat_snoc, zlen_app, zlen_sub by lia. do 3 f_equal. lia.
Qed.

Lemma Forall2_eq_refl {A} (l : list A) : Forall2 eq l l.
Proof. induction l; constructor; done. Qed.
Lemma skyline_psums {A} (ps : list (list A)) : skyline ps (concat ps) (psums (zlen <$> ps)).
Proof. split; [done|apply psums_ok]. Qed.
Lemma zsum_pre {A} (ps : list (list A)) : zlen (concat ps) = zsum (zlen <$> ps).
Proof. apply zlen_concat. Qed.

Lemma put_ok {A} (v : list (list A)) : exists k r, PutIntoToSkylineFrmt v = Ok (Some <$> k, Some <$> r) /\ skyline v k r.
Proof.
  exists (concat v), (psums (zlen <$> v)). split; [|apply skyline_psums]. unfold PutIntoToSkylineFrmt. pose proof (zlen_nonneg v).
  rewrite alloc1 by lia. cbn [bind]. rewrite iost_start by lia. cbn [bind].
  set (st := fun ps : list (list A) => (iost (zlen v) (zlen <$> ps), zlen ps)).
  change (iost (zlen v) [], 0) with (st []). rewrite (foldM_blocks _ eq st v v (Forall2_eq_refl v)).
  2: { intros pre x b post E ->. unfold st. assert (zlen pre < zlen v) by (rewrite E, zlen_app, zlen_cons; pose proof (zlen_nonneg post); lia).
       pose proof (iost_rd (zlen v) (zlen <$> pre)) as Hrd. rewrite zlen_fmap in Hrd. rewrite Hrd. cbn [bind].
       rewrite (iost_wr _ _ (zlen b)) by (rewrite ?zlen_fmap; lia). cbn [bind]. rewrite fmap_snoc, (zlen_app pre). done. }
  cbn [bind]. unfold st. pose proof (iost_rd (zlen v) (zlen <$> v)) as Hrd. rewrite zlen_fmap in Hrd. rewrite Hrd. cbn [bind].
  rewrite <- zsum_pre. rewrite alloc1 by apply zlen_nonneg. cbn [bind]. rewrite ost_start. set (m := zlen (concat v)).
  pose (st2 := fun ps : list (list A) => (ost m ps, zlen (concat ps))). change (ost m [], 0) with (st2 []).
  rewrite (foldM_blocks _ eq st2 v v (Forall2_eq_refl v)).
  2: { intros pre x b post E ->. unfold st2. pose proof (zlen_pre pre b post) as Hl. rewrite <- E in Hl. pose proof (zlen_nonneg (concat post)). pose proof (zlen_nonneg b).
       rewrite ost_copy by (unfold m; lia). cbn [bind]. rewrite sub_full, concat_snoc, zlen_app. done. }
  cbn [bind]. unfold st2. rewrite ost_end by done. rewrite <- (zlen_fmap zlen v), iost_end. done.
Qed.

(** ** ExtractFromIndexedArrays *)
Definition ext1 (offs : list Z) '(io, w, lgth) (id : Z) : res (list (option Z) * Z * Z) :=
  let* lgth := if (0 <=? id) && (id <? zlen offs - 1)
               then let* b := rd offs (id + 1) in let* a := rd offs id in Ok (lgth + (b - a))
               else Throw in
  let* prev := rdc io (w - 1) in
  if prev <=? lgth then let* io := wrc io w lgth in Ok (io, w + 1, lgth) else Throw.
Definition ext2 {A} (vals : list A) (offs : list Z) '(o, p) (id : Z) : res (list (option A) * Z) :=
  let* a := rd offs id in
  let* b := rd offs (id + 1) in
  if (0 <=? a) && (b <=? zlen vals) then let* o := copyc vals a b o p in Ok (o, p + (b - a)) else Throw.
Definition est1 (n : Z) (ls : list Z) := (iost n ls, zlen ls + 1, zsum ls).
Definition est2 {A} (m : Z) (ps : list (list A)) := (ost m ps, zlen (concat ps)).
Definition extProg {A} (vals : list A) (offs : list Z) (ids : list Z) : res (list (option A) * list (option Z)) :=
  let* (io, _, lgth) := foldM (ext1 offs) ids (iost (zlen ids) [], 1, 0) in
  let* o := alloc A lgth 1 in
  let* (o, _) := foldM (ext2 vals offs) ids (o, 0) in
  Ok (o, io).

Lemma ext1_ok offs n ls x b : zlen ls < n -> blen offs x b -> ext1 offs (est1 n ls) x = Ok (est1 n (ls ++ [b])).
Proof.
  intros Hl (a & c & Ha & Hb & Hab & ->). unfold ext1, est1. rewrite (look2' offs x a c) by done. rewrite (rd_ok _ _ _ Hb), (rd_ok _ _ _ Ha). cbn [bind].
  rewrite Z.add_simpl_r, iost_rd. cbn [bind]. replace (zsum ls <=? zsum ls + (c - a)) with true by lia. rewrite (iost_wr _ _ (c - a)) by lia. cbn [bind].
  rewrite zlen_app, zsum_snoc. done.
Qed.
Lemma ext1_throw offs n ls x : zlen ls < n -> (forall b, ~ blen offs x b) -> ext1 offs (est1 n ls) x = Throw.
Proof.
  intros Hl Hn. unfold ext1, est1. destruct ((0 <=? x) && (x <? zlen offs - 1)) eqn:E; [|done]. destruct (look2 offs x) as (a & b & Ha & Hb); [lia|].
  rewrite (rd_ok _ _ _ Hb), (rd_ok _ _ _ Ha). cbn [bind]. rewrite Z.add_simpl_r, iost_rd. cbn [bind].
  destruct (Z.leb_spec (zsum ls) (zsum ls + (b - a))); [|done]. exfalso. apply (Hn (b - a)). exists a, b. split; [done|]. split; [done|]. split; [lia|done].
Qed.
Lemma ext2_ok {A} (vals : list A) offs m pre x p post : m = zlen (concat (pre ++ p :: post)) -> pack vals offs x p ->
  ext2 vals offs (est2 m pre) x = Ok (est2 m (pre ++ [p])).
Proof.
  intros -> (a & b & Ha & Hb & H0 & Hab & Hbv & ->). unfold ext2, est2. rewrite (rd_ok _ _ _ Hb), (rd_ok _ _ _ Ha). cbn [bind].
  replace ((0 <=? a) && (b <=? zlen vals)) with true by lia. rewrite zlen_pre, zlen_sub by lia. pose proof (zlen_nonneg (concat post)).
  rewrite ost_copy by lia. cbn [bind]. rewrite concat_snoc, zlen_app, zlen_sub by lia. done.
Qed.
Lemma pack_len {A} (vals : list A) offs x p : pack vals offs x p -> blen offs x (zlen p).
Proof. intros (a & b & Ha & Hb & H0 & Hab & Hbv & ->). exists a, b. rewrite zlen_sub by lia. done. Qed.
Lemma packs_len {A} (vals : list A) offs ids ps : Forall2 (pack vals offs) ids ps -> Forall2 (blen offs) ids (zlen <$> ps).
Proof. intros H. induction H as [|x p ids ps Hx H IH]; [constructor|]. simpl. constructor; [by eapply pack_len|done]. Qed.
Lemma ext1_all offs ids ls : Forall2 (blen offs) ids ls -> foldM (ext1 offs) ids (iost (zlen ids) [], 1, 0) = Ok (iost (zlen ids) ls, zlen ls + 1, zsum ls).
Proof.
  intros H. change (iost (zlen ids) [], 1, 0) with (est1 (zlen ids) []). rewrite (foldM_blocks _ (blen offs) (est1 (zlen ids)) ids ls H); [done|].
  intros pre x b post E Hb. apply ext1_ok; [|done]. apply Forall2_length in H. unfold zlen. rewrite H, E, app_length. simpl. lia.
Qed.
Lemma zsum_lens offs ids ls : Forall2 (blen offs) ids ls -> 0 <= zsum ls.
Proof.
  intros H. apply zsum_nonneg. intros v Hv. apply elem_of_list_lookup in Hv as [i Hi]. destruct (Forall2_lookup_r _ _ _ _ _ H Hi) as (x & _ & a & b & _ & _ & ? & ->). lia.
Qed.
Lemma extProg_ok {A} (vals : list A) offs ids ps : Forall2 (pack vals offs) ids ps -> extProg vals offs ids = Ok (Some <$> concat ps, Some <$> psums (zlen <$> ps)).
Proof.
  intros H. unfold extProg. rewrite (ext1_all _ _ _ (packs_len _ _ _ _ H)). cbn [bind]. rewrite <- zsum_pre. rewrite alloc1 by apply zlen_nonneg. cbn [bind].
  rewrite ost_start. change (ost (zlen (concat ps)) [], 0) with (est2 (zlen (concat ps)) (@nil (list A))).
  rewrite (foldM_blocks _ (pack vals offs) (est2 (zlen (concat ps))) ids ps H).
  2: { intros pre x b post E Hb. eapply ext2_ok; [by rewrite E|done]. }
  cbn [bind]. unfold est2. rewrite ost_end by done. replace (zlen ids) with (zlen (zlen <$> ps)) by (rewrite zlen_fmap; unfold zlen; rewrite (Forall2_length _ _ _ H); done).
  rewrite iost_end. done.
Qed.
Lemma pack_dec {A} (vals : list A) offs x : (exists p, pack vals offs x p) \/ ~ exists p, pack vals offs x p.
Proof.
  destruct (blen_dec offs x) as [(b & a & c & H1 & H2 & H3 & _)|Hn]; [|right; intros (p & Hp); apply (Hn (zlen p)); by eapply pack_len].
  destruct (decide (0 <= a /\ c <= zlen vals)) as [[H4 H5]|H4].
  - left. exists (sub vals a c), a, c. done.
  - right. intros (p & a' & c' & H1' & H2' & H6 & _ & H7 & _). apply H4. assert (a' = a /\ c' = c) as [-> ->] by (split; congruence). done.
Qed.
(** The second loop refuses the first id whose bounds do not fit in the values. *)
Lemma ext2_throw {A} (vals : list A) offs ids ls : Forall2 (blen offs) ids ls -> (exists x, x ∈ ids /\ ~ exists p, pack vals offs x p) ->
  forall (pre : list (list A)) m, zlen (concat pre) + zsum ls <= m -> foldM (ext2 vals offs) ids (est2 m pre) = Throw.
Proof.
  intros H. induction H as [|x b ids ls Hx H IH]; intros (y & Hy & Hn) pre m Hm; [by apply elem_of_nil in Hy|]. change (zsum (b :: ls)) with (b + zsum ls) in Hm. cbn [foldM].
  pose proof (zsum_lens _ _ _ H). destruct (pack_dec vals offs x) as [(p & Hp)|Hnp].
  - assert (zlen p = b) as <-. { destruct (pack_len _ _ _ _ Hp) as (a & c & H1 & H2 & _ & ->). destruct Hx as (a' & c' & H3 & H4 & _ & ->). assert (a' = a /\ c' = c) as [-> ->] by (split; congruence). done. }
    assert (Hs : ext2 vals offs (est2 m pre) x = Ok (est2 m (pre ++ [p]))).
    { destruct Hp as (a & c & Ha & Hb & H0' & Hab & Hbv & ->). unfold ext2, est2. rewrite (rd_ok _ _ _ Hb), (rd_ok _ _ _ Ha). cbn [bind].
      replace ((0 <=? a) && (c <=? zlen vals)) with true by lia. rewrite zlen_sub in Hm by lia.
      rewrite ost_copy by lia. cbn [bind]. rewrite concat_snoc, zlen_app, zlen_sub by lia. done. }
    rewrite Hs. cbn [bind]. apply elem_of_cons in Hy as [->|Hy]; [exfalso; apply Hn; by exists p|]. apply IH; [by exists y|]. rewrite concat_snoc, zlen_app. lia.
  - destruct Hx as (a & c & Ha & Hb & Hab & ->). unfold ext2 at 1, est2 at 1. rewrite (rd_ok _ _ _ Hb), (rd_ok _ _ _ Ha). cbn [bind].
    destruct ((0 <=? a) && (c <=? zlen vals)) eqn:E; [|done]. exfalso. apply Hnp. exists (sub vals a c), a, c. repeat (split; [done || lia|]). done.
Qed.
Lemma extProg_throw {A} (vals : list A) offs ids : extProg vals offs ids = Throw <-> exists x, x ∈ ids /\ forall p, ~ pack vals offs x p.
Proof.
  destruct (Forall_or_ex (fun x => exists p, pack vals offs x p) ids) as [Hall|(x & Hx & Hn)]; [intros; apply pack_dec| |].
  - destruct (Forall2_has _ _ Hall) as [ps Hps]. rewrite (extProg_ok _ _ _ _ Hps). split; [done|]. intros (x & Hx & Hn). destruct (Hall x Hx) as [p Hp]. by destruct (Hn p).
  - split; [intros _; exists x; split; [done|]; intros p Hp; apply Hn; by exists p|intros _]. unfold extProg.
    destruct (Forall_or_ex (fun x => exists b, blen offs x b) ids) as [Hall|(y & Hy & Hny)].
    { intros z _. destruct (blen_dec offs z) as [?|Hz]; [by left|]. right. intros [b Hb]. by apply (Hz b). }
    + destruct (Forall2_has _ _ Hall) as [ls Hls]. rewrite (ext1_all _ _ _ Hls). cbn [bind]. rewrite alloc1 by (by eapply zsum_lens). cbn [bind].
      rewrite ost_start. change (ost (zsum ls) [], 0) with (est2 (zsum ls) (@nil (list A))). rewrite (ext2_throw vals offs ids ls Hls); [done|by exists x|].
      simpl. change (zlen (@nil A)) with 0. lia.
    + change (iost (zlen ids) [], 1, 0) with (est1 (zlen ids) []). rewrite (foldM_blocks_throw _ (blen offs) (est1 (zlen ids)) ids); [done|intros; apply blen_dec| | |].
      * intros. by apply ext1_ok.
      * intros. by apply ext1_throw.
      * exists y. split; [done|]. intros b Hb. apply Hny. by exists b.
Qed.

Section extract.
  Context {A : Type} (d : da A) (x : da Z) (Ha : da_alloc d = true) (Hc : da_nc d = 1) (Hax : da_alloc x = true) (Hcx : da_nc x = 1) (Hx : 1 <= da_nt x).
  Lemma extract_eq ids : ExtractFromIndexedArrays ids (Some d) (Some x) = extProg (da_vals d) (da_vals x) ids.
  Proof.
    unfold ExtractFromIndexedArrays, checkAllocated. rewrite Ha, Hax, Hc, Hcx. cbn [negb ifthrow Z.eqb Pos.eqb orb].
    rewrite (da_nt_one x) in * by done. rewrite (da_nt_one d) by done. replace (zlen (da_vals x) - 1 <? 0) with false by lia. cbn [ifthrow]. pose proof (zlen_nonneg ids).
    rewrite alloc1 by lia. cbn [bind]. rewrite iost_start by lia. done.
  Qed.
  Lemma extractSlice_eq start stop step ids : valid_range start stop step -> is_range_list start stop step ids ->
    ExtractFromIndexedArraysSlice start stop step (Some d) (Some x) = extProg (da_vals d) (da_vals x) ids.
  Proof.
    intros Hv Hr. unfold ExtractFromIndexedArraysSlice, checkAllocated. rewrite Ha, Hax, Hc, Hcx. cbn [negb ifthrow Z.eqb Pos.eqb orb].
    rewrite (count_is_len _ _ _ _ Hv Hr). cbn [bind].
    rewrite (da_nt_one x) in * by done. rewrite (da_nt_one d) by done. replace (zlen (da_vals x) - 1 <? 0) with false by lia. cbn [ifthrow]. pose proof (zlen_nonneg ids).
    rewrite alloc1 by lia. cbn [bind]. rewrite iost_start by lia. cbn [bind]. pose proof (arith_range _ _ _ _ Hr) as Har. unfold extProg.
    rewrite (forZ_arith (ext1 (da_vals x)) _ start step (zlen ids)); [|intros i [[io w] lg] id|done].
    2: { unfold ext1. destruct ((0 <=? id) && (id <? zlen (da_vals x) - 1)); [|done]. destruct (rd (da_vals x) (id + 1)) as [vb| | |]; [|done..]. cbn [bind].
         destruct (rd (da_vals x) id) as [va| | |]; [|done..]. cbn [bind]. destruct (rdc io (w - 1)) as [pr| | |]; [|done..]. cbn [bind].
         destruct (pr <=? lg + (vb - va)); [|done]. destruct (wrc io w _); done. }
    rewrite <- Har. destruct (foldM (ext1 (da_vals x)) ids _) as [[[io w] lg]| | |]; [|done..]. cbn [bind]. destruct (alloc A lg 1) as [o| | |]; [|done..]. cbn [bind].
    rewrite (forZ_arith (ext2 (da_vals d) (da_vals x)) _ start step (zlen ids)); [|intros i [o' p] id|done].
    2: { unfold ext2. destruct (rd (da_vals x) id) as [va| | |]; [|done..]. cbn [bind]. destruct (rd (da_vals x) (id + 1)) as [vb| | |]; [|done..]. cbn [bind].
         destruct ((0 <=? va) && (vb <=? zlen (da_vals d))); [|done]. destruct (copyc _ _ _ _ _); done. }
    rewrite <- Har. destruct (foldM (ext2 (da_vals d) (da_vals x)) ids _) as [[o' p]| | |]; done.
  Qed.
  Lemma extract_ok ids ps : Forall2 (pack (da_vals d) (da_vals x)) ids ps ->
    exists k r, ExtractFromIndexedArrays ids (Some d) (Some x) = Ok (Some <$> k, Some <$> r) /\ skyline ps k r.
  Proof. intros H. exists (concat ps), (psums (zlen <$> ps)). split; [rewrite extract_eq; by apply extProg_ok|apply skyline_psums]. Qed.
  Lemma extract_throw ids : ExtractFromIndexedArrays ids (Some d) (Some x) = Throw <-> exists i, i ∈ ids /\ forall p, ~ pack (da_vals d) (da_vals x) i p.
  Proof. rewrite extract_eq. apply extProg_throw. Qed.
  Lemma extractSlice_same start stop step ids : valid_range start stop step -> is_range_list start stop step ids ->
    ExtractFromIndexedArraysSlice start stop step (Some d) (Some x) = ExtractFromIndexedArrays ids (Some d) (Some x).
  Proof. intros. rewrite extract_eq. by apply extractSlice_eq. Qed.
End extract.
