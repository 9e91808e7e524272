From Verif Require Import Base DataArray ArrLib StrModel StrSpec StrProofs StrProofs2.
From Coq Require Import ZifyBool ZifyNat.

Lemma foldM_zip_ok {A B C} (chk : A -> B -> bool) (g : A -> B -> C) (l1 : list A) (l2 : list B) pre :
  foldM (fun ret '(x, y) => throw_if chk x y >>> Ok (ret ++ [g x y])) (zip l1 l2) pre =
  if existsb (fun '(x, y) => chk x y) (zip l1 l2) then Throw else Ok (pre ++ zip_with g l1 l2).
Proof.
  revert l2 pre. induction l1 as [|x l1 IH]; intros [|y l2] pre; try (cbn; by rewrite app_nil_r). cbn [zip_with foldM existsb]. destruct (chk x y); [done|]. cbn [ifthrow bind orb]. rewrite IH. destruct (existsb _ _); [done|]. by rewrite <- app_assoc.
Qed.
Lemma existsb_zip {A B} (chk : A -> B -> bool) l1 l2 : length l1 = length l2 -> existsb (fun '(x, y) => chk x y) (zip l1 l2) = false <-> Forall2 (fun x y => chk x y = false) l1 l2.
Proof.
  revert l2. induction l1 as [|x l1 IH]; intros [|y l2] H; simpl in H; try lia; [split; [constructor|done]|]. cbn [zip_with existsb]. rewrite orb_false_iff, IH by lia. split; [intros [? ?]; by constructor|]. intros HF. inversion HF. done.
Qed.

(** ** Intersections *)
Definition inter1 (x y : Z * Z) : Z * Z := (Z.max x.1 y.1, Z.min x.2 y.2).
Definition inter_bad (x y : Z * Z) : bool := (x.2 <? x.1) || (y.2 <? y.1) || (Z.min x.2 y.2 <? Z.max x.1 y.1).
Lemma intersect_eq r1 r2 : IntersectRanges r1 r2 = if negb (zlen r1 =? zlen r2) then Throw else if existsb (fun '(x, y) => inter_bad x y) (zip r1 r2) then Throw else Ok (zip_with inter1 r1 r2).
Proof.
  unfold IntersectRanges. destruct (negb _); [done|]. cbn [ifthrow]. etransitivity; [|exact (foldM_zip_ok inter_bad inter1 r1 r2 [])]. apply foldM_ext. intros s [[a1 b1] [a2 b2]] _. unfold inter_bad, inter1. cbn [fst snd].
  destruct (b1 <? a1); [done|]. destruct (b2 <? a2); [done|]. done.
Qed.
Lemma in_inter r1 r2 pos : zlen r1 = zlen r2 -> in_box (zip_with inter1 r1 r2) pos <-> in_box r1 pos /\ in_box r2 pos.
Proof.
  revert r2 pos. induction r1 as [|x r1 IH]; intros [|y r2] pos H; unfold zlen in H; simpl in H; try lia.
  - split; [intros H'; inversion H'; subst; split; constructor|by intros [? _]].
  - cbn [zip_with]. split.
    + intros H'. inversion H' as [|? p ? pos' Hp Hr]; subst. apply IH in Hr as [H1 H2]; [|unfold zlen; lia]. unfold inter1 in Hp. simpl in Hp. split; constructor; try done; lia.
    + intros [H1 H2]. inversion H1 as [|? p ? pos' Hp Hr]; subst. inversion H2 as [|? p' ? pos2 Hp' Hr']; subst. constructor; [unfold inter1; simpl; lia|]. apply IH; [unfold zlen; lia|]. done.
Qed.
Lemma intersect_ok r1 r2 r : IntersectRanges r1 r2 = Ok r -> forall pos, in_box r pos <-> in_box r1 pos /\ in_box r2 pos.
Proof.
  rewrite intersect_eq. destruct (zlen r1 =? zlen r2) eqn:E; [|done]. cbn [negb]. destruct (existsb _ _); [done|]. intros [= <-] pos. apply in_inter. lia.
Qed.
Lemma intersect_throw r1 r2 : zlen r1 = zlen r2 -> valid_box r1 -> valid_box r2 -> IntersectRanges r1 r2 = Throw -> forall pos, ~ (in_box r1 pos /\ in_box r2 pos).
Proof.
  intros Hl H1 H2. rewrite intersect_eq, Hl, Z.eqb_refl. cbn [negb]. destruct (existsb _ _) eqn:E; [|done]. intros _ pos [P1 P2]. apply not_false_iff_true in E. apply E. unfold zlen in Hl. apply existsb_zip; [lia|].
  clear E. revert r2 pos Hl H2 P1 P2. induction H1 as [|x r1 Hx H1 IH]; intros [|y r2] pos Hl H2 P1 P2; simpl in Hl; try lia; [constructor|]. inversion H2; subst. inversion P1; subst. inversion P2; subst. constructor; [unfold inter_bad; lia|]. eapply IH; try done. lia.
Qed.
Lemma intersect_bad r1 r2 : zlen r1 <> zlen r2 \/ ~ valid_box r1 \/ ~ valid_box r2 -> IntersectRanges r1 r2 = Throw.
Proof.
  intros H. rewrite intersect_eq. destruct (zlen r1 =? zlen r2) eqn:E; [|done]. cbn [negb]. destruct (existsb _ _) eqn:E2; [done|]. exfalso. apply existsb_zip in E2; [|unfold zlen in E; lia]. destruct H as [H|[H|H]]; [lia| |]; apply H.
  - clear -E2. induction E2; constructor; [unfold inter_bad in *; lia|done].
  - clear -E2. induction E2; constructor; [unfold inter_bad in *; lia|done].
Qed.
Lemma areIntersect_ok r1 r2 : zlen r1 = zlen r2 -> Forall (fun r => fst r < snd r) r1 -> Forall (fun r => fst r < snd r) r2 ->
  exists b, AreRangesIntersect r1 r2 = Ok b /\ (b = true <-> exists pos, in_box r1 pos /\ in_box r2 pos).
Proof.
  intros Hl H1 H2. unfold AreRangesIntersect. rewrite Hl, Z.eqb_refl. cbn [negb ifthrow]. revert r2 Hl H2. induction H1 as [|[a1 b1] r1 Hx _ IH]; intros [|[a2 b2] r2] Hl H2; unfold zlen in Hl; simpl in Hl; try lia.
  - exists true. split; [done|]. split; [|done]. intros _. exists []. split; constructor.
  - inversion H2 as [|?? Hy H2']; subst. simpl in Hx, Hy. cbn [zip_with rangesIntersect]. replace (b1 <? a1) with false by lia. replace (b2 <? a2) with false by lia. cbn [ifthrow].
    destruct (b1 <=? a2) eqn:E1.
    { exists false. split; [done|]. split; [done|]. intros (pos & P1 & P2). inversion P1 as [|? p ? pos' Hp _]; subst. inversion P2; subst. simpl in *. lia. }
    destruct (b2 <=? a1) eqn:E2.
    { exists false. split; [done|]. split; [done|]. intros (pos & P1 & P2). inversion P1 as [|? p ? pos' Hp _]; subst. inversion P2; subst. simpl in *. lia. }
    destruct (IH r2 ltac:(unfold zlen; lia) H2') as (b & -> & Hb). exists b. split; [done|]. rewrite Hb. split.
    + intros (pos & P1 & P2). exists (Z.max a1 a2 :: pos). split; constructor; try done; simpl; lia.
    + intros (pos & P1 & P2). inversion P1 as [|? p ? pos' Hp Hr]; subst. inversion P2; subst. exists pos'. done.
Qed.

(** ** Change of reference *)
Lemma in_shift part t pos : length t = length part -> in_box (shift_box part t) (zip_with Z.add pos t) /\ length pos = length part <-> in_box part pos.
Proof.
  intros Hl. split.
  - intros [H HP]. revert t pos Hl HP H. induction part as [|r part IH]; intros t pos Hl HP H; destruct t as [|d t]; try done; destruct pos as [|p pos]; try done. cbn [shift_box zip_with] in H. inversion H; subst. constructor; [simpl in *; lia|]. eapply (IH t); [simpl in Hl; lia|simpl in HP; lia|done].
  - intros H. split; [|apply Forall2_length in H; done]. revert t Hl. induction H as [|r p part pos Hp _ IH]; intros t Hl; destruct t as [|d t]; try done; [constructor|]. cbn [shift_box zip_with]. constructor; [simpl; lia|]. apply IH. simpl in Hl. lia.
Qed.
Definition from_bad (check : bool) (B r : Z * Z) : bool := check && ((B.2 <? B.1) || (r.1 <? B.1) || (B.2 <=? r.1) || (r.2 <? r.1) || (B.2 <? r.2)).
Definition to_bad (check : bool) (B r : Z * Z) : bool := check && ((B.2 <? B.1) || (r.1 <? 0) || (B.2 - B.1 <=? r.1) || (r.2 <? r.1) || (B.2 - B.1 <? r.2)).
Lemma from_eq big part check : ChangeReferenceFromGlobalOfCompactFrmt big part check =
  if negb (zlen big =? zlen part) then Throw else if existsb (fun '(x, y) => from_bad check x y) (zip big part) then Throw else Ok (zip_with (fun B r => (r.1 - B.1, r.2 - B.1)) big part).
Proof.
  unfold ChangeReferenceFromGlobalOfCompactFrmt. destruct (negb _); [done|]. cbn [ifthrow]. etransitivity; [|exact (foldM_zip_ok (from_bad check) (fun B r => (r.1 - B.1, r.2 - B.1)) big part [])]. apply foldM_ext. intros s [[a1 b1] [a2 b2]] _. unfold from_bad. cbn [fst snd].
  destruct check; [|done]. cbn [andb]. destruct (b1 <? a1); [done|]. destruct (a2 <? a1); [done|]. destruct (b1 <=? a2); [done|]. destruct (b2 <? a2); [done|]. done.
Qed.
Lemma to_eq big part check : ChangeReferenceToGlobalOfCompactFrmt big part check =
  if negb (zlen big =? zlen part) then Throw else if existsb (fun '(x, y) => to_bad check x y) (zip big part) then Throw else Ok (zip_with (fun B r => (r.1 + B.1, r.2 + B.1)) big part).
Proof.
  unfold ChangeReferenceToGlobalOfCompactFrmt. destruct (negb _); [done|]. cbn [ifthrow]. etransitivity; [|exact (foldM_zip_ok (to_bad check) (fun B r => (r.1 + B.1, r.2 + B.1)) big part [])]. apply foldM_ext. intros s [[a1 b1] [a2 b2]] _. unfold to_bad. cbn [fst snd].
  destruct check; [|done]. cbn [andb]. destruct (b1 <? a1); [done|]. destruct (a2 <? 0); [done|]. destruct (b1 - a1 <=? a2); [done|]. destruct (b2 <? a2); [done|]. done.
Qed.
Lemma to_from big part check r : ChangeReferenceToGlobalOfCompactFrmt big part check = Ok r -> r = shift_box part (fst <$> big) /\ ChangeReferenceFromGlobalOfCompactFrmt big r check = Ok part.
Proof.
  rewrite to_eq, from_eq. destruct (zlen big =? zlen part) eqn:E; [|done]. cbn [negb]. destruct (existsb _ _) eqn:E2; [done|]. intros [= <-]. apply existsb_zip in E2; [|unfold zlen in E; lia].
  assert (zlen big = zlen (zip_with (fun B r => (r.1 + B.1, r.2 + B.1)) big part)) as HL by (unfold zlen in *; rewrite zip_with_length; lia). split.
  - clear -E2. induction E2 as [|B r big part _ _ IH]; [done|]. rewrite fmap_cons. cbn [zip_with shift_box]. rewrite IH. done.
  - rewrite <- HL, Z.eqb_refl. cbn [negb]. replace (existsb _ _) with false.
    + f_equal. clear -E2. induction E2 as [|B [a b] big part _ _ IH]; [done|]. cbn [zip_with fst snd]. rewrite IH. do 2 f_equal; lia.
    + symmetry. apply existsb_zip; [unfold zlen in HL; lia|]. clear -E2. induction E2 as [|B [a b] big part HB _ IH]; cbn [zip_with]; constructor; [|done]. unfold from_bad, to_bad in *. cbn [fst snd] in *. destruct check; [lia|done].
Qed.
Lemma from_to big part check r : ChangeReferenceFromGlobalOfCompactFrmt big part check = Ok r -> r = shift_box part (Z.opp <$> (fst <$> big)) /\ ChangeReferenceToGlobalOfCompactFrmt big r check = Ok part.
Proof.
  rewrite to_eq, from_eq. destruct (zlen big =? zlen part) eqn:E; [|done]. cbn [negb]. destruct (existsb _ _) eqn:E2; [done|]. intros [= <-]. apply existsb_zip in E2; [|unfold zlen in E; lia].
  assert (zlen big = zlen (zip_with (fun B r => (r.1 - B.1, r.2 - B.1)) big part)) as HL by (unfold zlen in *; rewrite zip_with_length; lia). split.
  - clear -E2. induction E2 as [|B r big part _ _ IH]; [done|]. rewrite !fmap_cons. cbn [zip_with shift_box]. rewrite IH. done.
  - rewrite <- HL, Z.eqb_refl. cbn [negb]. replace (existsb _ _) with false.
    + f_equal. clear -E2. induction E2 as [|B [a b] big part _ _ IH]; [done|]. cbn [zip_with fst snd]. rewrite IH. do 2 f_equal; lia.
    + symmetry. apply existsb_zip; [unfold zlen in HL; lia|]. clear -E2. induction E2 as [|B [a b] big part HB _ IH]; cbn [zip_with]; constructor; [|done]. unfold from_bad, to_bad in *. cbn [fst snd] in *. destruct check; [lia|done].
Qed.
(** When the operations succeed. *)
Lemma from_succeeds big part : (exists r, ChangeReferenceFromGlobalOfCompactFrmt big part true = Ok r) <-> inside big part.
Proof.
  rewrite from_eq. split.
  - intros [r H]. destruct (zlen big =? zlen part) eqn:E; [|done]. cbn [negb] in H. destruct (existsb _ _) eqn:E2; [done|]. apply existsb_zip in E2; [|unfold zlen in E; lia]. eapply Forall2_impl; [exact E2|]. intros [a b] [a' b']. unfold from_bad. simpl. lia.
  - intros H. pose proof (Forall2_length _ _ _ H) as HL. replace (zlen big =? zlen part) with true by (unfold zlen; lia). cbn [negb]. replace (existsb _ _) with false; [eauto|]. symmetry. apply existsb_zip; [done|]. eapply Forall2_impl; [exact H|]. intros [a b] [a' b']. unfold from_bad. simpl. lia.
Qed.

(** ** Translation *)
Lemma translate_ok part t : zlen t = zlen part -> TranslateCompactFrmt part t = Ok (shift_box part t).
Proof. intros H. unfold TranslateCompactFrmt. rewrite H, Z.eqb_refl. cbn [negb ifthrow]. f_equal. clear. revert t. induction part as [|[a b] part IH]; intros [|d t]; try done. cbn [zip_with shift_box]. rewrite IH. done. Qed.
Lemma translate_throw part t : zlen t <> zlen part -> TranslateCompactFrmt part t = Throw.
Proof. intros H. unfold TranslateCompactFrmt. replace (zlen t =? zlen part) with false by lia. done. Qed.
Lemma find_shift part t : zlen t = zlen part -> FindTranslationFrom part (shift_box part t) = Ok t.
Proof.
  intros H. unfold FindTranslationFrom. assert (zlen (shift_box part t) = zlen part) as -> by (unfold shift_box, zlen in *; rewrite zip_with_length; lia). rewrite Z.eqb_refl. cbn [negb ifthrow]. f_equal.
  unfold zlen in H. revert t H. induction part as [|[a b] part IH]; intros [|d t] H; simpl in H; try done; try lia. cbn [zip_with shift_box fst]. unfold shift_box in IH. rewrite IH by lia. f_equal. lia.
Qed.
Lemma shift_find from to : zlen from = zlen to -> box_dims from = box_dims to -> exists t, FindTranslationFrom from to = Ok t /\ TranslateCompactFrmt from t = Ok to.
Proof.
  intros H Hd. unfold FindTranslationFrom. rewrite H, Z.eqb_refl. cbn [negb ifthrow]. eexists. split; [done|]. unfold zlen in H. rewrite translate_ok by (unfold zlen; rewrite zip_with_length; lia). f_equal.
  revert to H Hd. induction from as [|[a b] from IH]; intros [|[a' b'] to] H Hd; simpl in H; try lia; [done|]. unfold box_dims in Hd. rewrite !fmap_cons in Hd. cbn [fst snd] in Hd. injection Hd as Hd1 Hd2. cbn [zip_with shift_box fst snd]. unfold shift_box in IH. rewrite IH by (try done; lia). do 2 f_equal; lia.
Qed.
Lemma find_throw from to : zlen from <> zlen to -> FindTranslationFrom from to = Throw.
Proof. intros H. unfold FindTranslationFrom. replace (zlen to =? zlen from) with false by lia. done. Qed.

(** ** Ghost layers *)
Lemma ghost_ok g st part : 0 <= g -> box_in st part ->
  PutInGhostFormat g st part = Ok ((fun n => n + 2 * g) <$> st, shift_box part (replicate (length part) g)) /\
  box_in ((fun n => n + 2 * g) <$> st) (shift_box part (replicate (length part) g)).
Proof.
  intros Hg Hb. split.
  - unfold PutInGhostFormat, ApplyGhostOnCompactFrmt. replace (g <? 0) with false by lia. cbn [ifthrow]. rewrite (box_in_len _ _ Hb), Z.eqb_refl. cbn [negb ifthrow]. replace (existsb _ _) with false.
    + cbn [ifthrow bind]. do 2 f_equal. clear. induction part as [|[a b] part IH]; [done|]. rewrite fmap_cons. cbn [length replicate shift_box zip_with]. rewrite IH. done.
    + symmetry. clear Hg. induction Hb as [|n [a b] st part Hr _ IH]; [done|]. cbn [zip_with existsb]. simpl in Hr. rewrite IH. lia.
  - induction Hb as [|n [a b] st part Hr _ IH]; [constructor|]. rewrite fmap_cons. cbn [length replicate shift_box zip_with]. constructor; [simpl in *; lia|done].
Qed.
Lemma ghost_throw g st part : g < 0 \/ ~ box_in st part -> PutInGhostFormat g st part = Throw.
Proof.
  intros H. unfold PutInGhostFormat. destruct (g <? 0) eqn:E; [done|]. cbn [ifthrow]. destruct (zlen st =? zlen part) eqn:E2; [|done]. cbn [negb ifthrow]. destruct (existsb _ _) eqn:E3; [done|]. exfalso. destruct H as [H|H]; [lia|]. apply H. clear -E2 E3.
  unfold zlen in E2. revert part E2 E3. induction st as [|n st IH]; intros [|[a b] part] E2 E3; simpl in E2; try lia; [constructor|]. cbn [zip_with existsb] in E3. apply orb_false_iff in E3 as [E3 E4]. constructor; [simpl; lia|]. apply IH; [lia|done].
Qed.
