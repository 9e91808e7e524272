(** Sharing of the pairs. *)
From stdpp Require Import sorting.
From Coq Require Import ZifyBool ZifyNat.
From Verif Require Import Base OverModel OverSpec.

Lemma at_zset {A} (l : list (list A)) i x p : 0 <= i < zlen l -> at_ (zset l i x) p = if p =? i then x else at_ l p.
Proof.
  intros Hi. unfold at_. rewrite zlook_zset by lia. by destruct (p =? i).
Qed.
Lemma at_look {A} (l : list (list A)) p x : l @ p = Some x -> at_ l p = x.
Proof. unfold at_. intros ->. done. Qed.
Lemma at_range {A} (l : list (list A)) p x : x ∈ at_ l p -> 0 <= p < zlen l /\ l @ p = Some (at_ l p).
Proof. unfold at_. destruct (l @ p) eqn:E; [|by intros ?%elem_of_nil]. intros _. split; [by apply zlook_Some_lt in E|done]. Qed.
Lemma at_some {A} (l : list (list A)) p : 0 <= p < zlen l -> l @ p = Some (at_ l p).
Proof. intros H. unfold at_. destruct (zlook_lt l p H) as [x ->]. done. Qed.
Lemma at_replicate {A} n p : at_ (replicate n ([] : list A)) p = [].
Proof. unfold at_, zlook. destruct (p <? 0); [done|]. destruct (replicate n [] !! Z.to_nat p) eqn:E; [|done]. apply lookup_replicate in E as [-> _]. done. Qed.
Lemma zlen_replicate' {A} n (x : A) : 0 <= n -> zlen (replicate (Z.to_nat n) x) = n.
Proof. intros H. unfold zlen. rewrite replicate_length. lia. Qed.

Lemma fold_nest {S A B} (f : S -> A -> B -> S) (g : A -> list B) l s : foldl (fun s i => foldl (fun s j => f s i j) s (g i)) s l = foldl (fun s (c : A * B) => f s c.1 c.2) s (concat ((fun i => pair i <$> g i) <$> l)).
Proof.
  revert s. induction l as [|i l IH]; intros s; [done|]. cbn [foldl fmap list_fmap concat]. rewrite foldl_app, IH. f_equal.
  generalize (g i) s. intros L. induction L as [|j L IHL]; intros s0; [done|]. cbn [foldl fmap list_fmap]. by rewrite IHL.
Qed.
Lemma foldl_ind {S A} (P : list A -> S -> Prop) (f : S -> A -> S) l s : P [] s -> (forall pre x post s, l = pre ++ x :: post -> P pre s -> P (pre ++ [x]) (f s x)) -> P l (foldl f s l).
Proof.
  intros H0 Hs. assert (G : forall post pre s, l = pre ++ post -> P pre s -> P l (foldl f s post)); [|by apply (G l [])].
  induction post as [|x post IH]; intros pre s1 E Hp; cbn [foldl]; [by rewrite app_nil_r in E; subst|]. apply (IH (pre ++ [x])); [by rewrite <- app_assoc|]. by eapply Hs.
Qed.

Lemma elem_concat {A} (L : list (list A)) x : x ∈ concat L <-> exists l, l ∈ L /\ x ∈ l.
Proof.
  induction L as [|l L IH]; cbn [concat]; [rewrite elem_of_nil; split; [done|intros (l & ?%elem_of_nil & _); done]|].
  rewrite elem_of_app, IH. setoid_rewrite elem_of_cons. split; [intros [?|(l' & ? & ?)]; eauto|]. intros (l' & [->|?] & ?); eauto.
Qed.

Lemma NoDup_concat {A} (L : list (list A)) : (forall l, l ∈ L -> NoDup l) -> (forall i j x l l', L !! i = Some l -> L !! j = Some l' -> x ∈ l -> x ∈ l' -> i = j) -> NoDup (concat L).
Proof.
  induction L as [|l L IH]; intros H1 H2; [constructor|]. cbn [concat]. apply NoDup_app. split; [apply H1; left|]. split.
  - intros x Hx (l' & Hl' & Hx')%elem_concat. apply elem_of_list_lookup in Hl' as (j & Hj). specialize (H2 0%nat (S j) x l l' eq_refl Hj Hx Hx'). lia.
  - apply IH; [intros; apply H1; by right|]. intros i j x l1 l2 Hi Hj Hx1 Hx2. specialize (H2 (S i) (S j) x l1 l2 Hi Hj Hx1 Hx2). lia.
Qed.
Section Pairs.
Context (n : Z) (Hn : 0 <= n) (inter : Z -> Z -> bool).
Definition allc : list couple := concat ((fun i => pair i <$> at_ (procPairs n inter) i) <$> seqZ 0 n).
Lemma pairs_at i : 0 <= i < n -> at_ (procPairs n inter) i = filter (fun j => inter i j) (seqZ 0 n).
Proof using Hn.
  intros Hi. unfold procPairs. apply at_look. rewrite zlook_fmap. unfold zlook. replace (i <? 0) with false by lia.
  replace (seqZ 0 n !! Z.to_nat i) with (Some i); [done|]. symmetry. apply lookup_seqZ. lia.
Qed.
Lemma allc_iff c : c ∈ allc <-> interact n inter c.
Proof using Hn.
  unfold allc, interact. rewrite elem_concat. destruct c as [i j]. split.
  - intros (l & (i' & -> & Hi')%elem_of_list_fmap & Hl). apply elem_of_seqZ in Hi'. apply elem_of_list_fmap in Hl as (j' & [= -> ->] & Hj). rewrite pairs_at in Hj by lia.
    apply elem_of_list_filter in Hj as [Hj1 Hj2]. apply elem_of_seqZ in Hj2. cbn [fst snd]. split; [lia|]. split; [lia|]. by apply Is_true_true.
  - cbn [fst snd]. intros (Hi & Hj & H). exists (pair i <$> at_ (procPairs n inter) i). split; [apply elem_of_list_fmap; exists i; split; [done|apply elem_of_seqZ; lia]|].
    apply elem_of_list_fmap. exists j. split; [done|]. rewrite pairs_at by done. apply elem_of_list_filter. split; [by apply Is_true_true|apply elem_of_seqZ; lia].
Qed.
Lemma allc_nodup : NoDup allc.
Proof using Hn.
  apply NoDup_concat.
  - intros l (i & -> & Hi)%elem_of_list_fmap. apply elem_of_seqZ in Hi. apply NoDup_fmap_2; [intros ? ? [= ->]; done|]. rewrite pairs_at by lia. apply NoDup_filter, NoDup_seqZ.
  - intros i j x l l' Hi Hj Hx Hx'. rewrite list_lookup_fmap in Hi, Hj.
    destruct (seqZ 0 n !! i) as [a|] eqn:Ea; [|done]. destruct (seqZ 0 n !! j) as [b|] eqn:Eb; [|done]. injection Hi as <-. injection Hj as <-.
    apply elem_of_list_fmap in Hx as (y & -> & _), Hx' as (y' & [= -> _] & _). apply lookup_seqZ in Ea, Eb. lia.
Qed.

(** The invariant of a list of owners. *)
Definition owned (pre : list couple) (todo : list (list couple)) : Prop :=
  zlen todo = n /\ (forall p, NoDup (at_ todo p)) /\ (forall p c, c ∈ at_ todo p -> c ∈ pre /\ (p = c.1 \/ p = c.2)) /\
  (forall c, c ∈ pre -> exists p, c ∈ at_ todo p) /\ (forall c p p', c ∈ at_ todo p -> c ∈ at_ todo p' -> p = p').
Lemma owned_shared pre todo : (forall c, c ∈ pre <-> interact n inter c) -> owned pre todo -> shared n inter todo.
Proof.
  intros Hp (H1 & H2 & H3 & H4 & H5). split; [done|]. split; [|split].
  - intros p l Hl. apply at_look in Hl as <-. split; [apply H2|]. intros c Hc. rewrite <- Hp. by apply H3.
  - intros c Hc. apply Hp, H4 in Hc as (p & Hc). exists p, (at_ todo p). split; [|done]. by apply at_range in Hc as [_ ?].
  - intros c p p' l l' Hl Hl' Hc Hc'. apply at_look in Hl as <-, Hl' as <-. by eapply H5.
Qed.
Lemma owned_push pre todo c p : owned pre todo -> c ∉ pre -> 0 <= p < n -> p = c.1 \/ p = c.2 -> owned (pre ++ [c]) (zset todo p (at_ todo p ++ [c])).
Proof.
  intros (H1 & H2 & H3 & H4 & H5) Hc Hp Hpc. assert (Hp' : 0 <= p < zlen todo) by lia.
  assert (Hel : forall q x, x ∈ at_ (zset todo p (at_ todo p ++ [c])) q <-> x ∈ at_ todo q \/ x = c /\ q = p).
  { intros q x. rewrite at_zset by done. destruct (Z.eqb_spec q p) as [->|?]; [rewrite elem_of_app, elem_of_list_singleton; tauto|]. split; [tauto|]. intros [?|[_ ?]]; [done|lia]. }
  assert (Hcn : forall q, c ∉ at_ todo q) by (intros q [? _]%H3; done).
  split; [by rewrite zlen_zset|]. split; [|split; [|split]].
  - intros q. rewrite at_zset by done. destruct (q =? p); [|apply H2]. apply NoDup_app. split; [apply H2|]. split; [|apply NoDup_singleton]. intros x Hx ->%elem_of_list_singleton. by apply Hcn in Hx.
  - intros q x [Hx|[-> ->]]%Hel; [apply H3 in Hx as [? ?]; split; [apply elem_of_app; by left|done]|]. split; [apply elem_of_app; right; left|done].
  - intros x [Hx| ->%elem_of_list_singleton]%elem_of_app; [apply H4 in Hx as (q & Hq); exists q; apply Hel; by left|]. exists p. apply Hel. by right.
  - intros x q q' [Hq|[-> ->]]%Hel [Hq'|[E' ->]]%Hel; [by eapply H5|subst; by apply Hcn in Hq|by apply Hcn in Hq'|done].
Qed.
Lemma original_ok : shared n inter (computeTodoList_original n (procPairs n inter)).
Proof using Hn.
  apply (owned_shared allc); [apply allc_iff|]. unfold computeTodoList_original.
  rewrite (fold_nest (fun todo i j => if zlen (at_ todo i) <=? zlen (at_ todo j) then zset todo i (at_ todo i ++ [(i, j)]) else zset todo j (at_ todo j ++ [(i, j)]))).
  fold allc. apply (foldl_ind owned).
  - split; [by apply zlen_replicate'|]. split; [intros p; rewrite at_replicate; constructor|]. split; [intros p c; rewrite at_replicate; by intros ?%elem_of_nil|].
    split; [intros c ?%elem_of_nil; done|]. intros c p p'. rewrite at_replicate. by intros ?%elem_of_nil.
  - intros pre [i j] post todo E Ho. change (allc = pre ++ (i, j) :: post) in E. cbn [fst snd]. assert (Hc : (i, j) ∉ pre). { pose proof allc_nodup as Hd. rewrite E in Hd. apply NoDup_app in Hd as (_ & Hd & _). intros Hx. apply (Hd _ Hx). left. }
    assert (Hin : interact n inter (i, j)) by (apply allc_iff; rewrite E; apply elem_of_app; right; left). destruct Hin as (Hi & Hj & _). cbn [fst snd] in *.
    match goal with |- owned _ (if ?b then _ else _) => destruct b end; apply owned_push; auto.
Qed.
End Pairs.

(** Maps. *)
Definition mord (m : list (couple * Z)) : Prop := StronglySorted (fun a b => Is_true (pltb a b)) m.*1.
Lemma pltb_spec a b : Is_true (pltb a b) <-> a.1 < b.1 \/ a.1 = b.1 /\ a.2 < b.2.
Proof. unfold pltb. rewrite Is_true_true. lia. Qed.
Lemma pltb_total a b : Is_true (pltb a b) \/ a = b \/ Is_true (pltb b a).
Proof. rewrite !pltb_spec. destruct a as [a1 a2], b as [b1 b2]. cbn [fst snd]. destruct (decide (a1 = b1)) as [->|]; [destruct (decide (a2 = b2)) as [->|]|]; [tauto|lia..]. Qed.
Lemma mord_cons p m : mord (p :: m) <-> mord m /\ forall c v, (c, v) ∈ m -> Is_true (pltb p.1 c).
Proof.
  unfold mord. rewrite fmap_cons. split.
  - intros H. inversion H as [|? ? H1 H2]; subst. split; [done|]. intros c v Hc. rewrite Forall_forall in H2. apply H2. apply elem_of_list_fmap. by exists (c, v).
  - intros [H1 H2]. constructor; [done|]. apply Forall_forall. intros x ([c v] & -> & Hc)%elem_of_list_fmap. by eapply H2.
Qed.
Lemma mput_elem k x m c v : mord m -> (c, v) ∈ mput k x m <-> (c = k /\ v = x) \/ (c <> k /\ (c, v) ∈ m).
Proof.
  induction m as [|p m IH]; intros Hm; cbn [mput].
  - rewrite elem_of_list_singleton, elem_of_nil. split; [intros [= -> ->]; by left|]. intros [[-> ->]|[_ []]]. done.
  - apply mord_cons in Hm as [Hm Hp]. destruct (pltb k p.1) eqn:E1.
    + assert (Hk : forall c' v', (c', v') ∈ p :: m -> c' <> k). { intros c' v' [[= <-]|Hc]%elem_of_cons ->; [cbn [fst] in E1|apply Hp in Hc]; apply Is_true_true in E1; rewrite ?pltb_spec in *; lia. }
      rewrite (elem_of_cons (p :: m)). split; [intros [[= -> ->]|H]; [by left|right; split; [by eapply Hk|done]]|]. intros [[-> ->]|[? ?]]; tauto.
    + destruct (pltb p.1 k) eqn:E2.
      * rewrite !elem_of_cons, IH by done. destruct p as [k' x']. cbn [fst] in *. split; [intros [[= -> ->]|[?|?]]|]; [|tauto..]. right. split; [|tauto]. intros ->. congruence.
      * destruct p as [k' x']. cbn [fst] in *. assert (k = k') as <- by (destruct (pltb_total k k') as [H|[H|H]]; [rewrite E1 in H; done|done|rewrite E2 in H; done]).
        rewrite !elem_of_cons. split; [intros [[= -> ->]|H]; [by left|]|].
        -- right. split; [|tauto]. intros ->. apply Hp in H. rewrite pltb_spec in H. lia.
        -- intros [[-> ->]|[Hne [[= ? ?]|H]]]; [by left|done|by right].
Qed.
Lemma mord_mput k x m : mord m -> mord (mput k x m).
Proof.
  induction m as [|p m IH]; intros Hm; cbn [mput]; [apply mord_cons; split; [constructor|intros ? ? ?%elem_of_nil; done]|]. pose proof Hm as [Hm' Hp]%mord_cons.
  destruct (pltb k p.1) eqn:E1; [|destruct (pltb p.1 k) eqn:E2].
  - apply mord_cons. split; [done|]. cbn [fst]. intros c v [[= <-]|Hc]%elem_of_cons; [by apply Is_true_true|]. apply Hp in Hc. apply Is_true_true in E1. rewrite pltb_spec in *. lia.
  - apply mord_cons. split; [by apply IH|]. intros c v [[-> ->]|[_ Hc]]%mput_elem; [by rewrite E2|by eapply Hp|done].
  - apply mord_cons. split; [done|]. destruct p as [k' x']. cbn [fst] in *. assert (k = k') as <- by (destruct (pltb_total k k') as [H|[H|H]]; [rewrite E1 in H; done|done|rewrite E2 in H; done]). done.
Qed.
Lemma mord_nodup m : mord m -> NoDup m.*1.
Proof.
  induction m as [|p m IH]; intros Hm; [constructor|]. apply mord_cons in Hm as [Hm Hp]. rewrite fmap_cons. constructor; [|by apply IH].
  intros ([c v] & E & Hc)%elem_of_list_fmap. apply Hp in Hc. cbn [fst] in E. subst c. rewrite pltb_spec in Hc. lia.
Qed.
Lemma mord_keys m m' : m.*1 = m'.*1 -> mord m -> mord m'.
Proof. unfold mord. by intros ->. Qed.
Lemma mord_mdel k m : mord m -> mord (mdel k m).
Proof.
  unfold mdel. induction m as [|p m IH]; intros Hm; [done|]. pose proof Hm as [Hm' Hp]%mord_cons. rewrite filter_cons. destruct (decide (p.1 <> k)); [|by apply IH].
  apply mord_cons. split; [by apply IH|]. intros c v [_ Hc]%elem_of_list_filter. by eapply Hp.
Qed.
Lemma mdel_elem k m c v : (c, v) ∈ mdel k m <-> c <> k /\ (c, v) ∈ m.
Proof. unfold mdel. by rewrite elem_of_list_filter. Qed.
Lemma mord_fun m c v v' : mord m -> (c, v) ∈ m -> (c, v') ∈ m -> v = v'.
Proof.
  intros Hm. induction m as [|p m IH]; [by intros ?%elem_of_nil|]. apply mord_cons in Hm as [Hm Hp]. rewrite !elem_of_cons. destruct p as [k x]. cbn [fst] in Hp.
  assert (Hk : forall v, (k, v) ∉ m) by (intros w Hw%Hp; rewrite pltb_spec in Hw; lia). intros [H1|H1] [H2|H2]; [congruence|injection H1 as -> ->; by apply Hk in H2|injection H2 as -> ->; by apply Hk in H1|by apply IH].
Qed.
Lemma mput_len k x m v : mord m -> (k, v) ∈ m -> length (mput k x m) = length m.
Proof.
  intros Hm. induction m as [|p m IH]; [by intros ?%elem_of_nil|]. apply mord_cons in Hm as [Hm Hp]. intros Hin. cbn [mput].
  assert (Hk : ~ Is_true (pltb k p.1)). { rewrite pltb_spec. apply elem_of_cons in Hin as [<-|Hin]; [cbn [fst]; lia|]. apply Hp in Hin. rewrite pltb_spec in Hin. lia. }
  destruct (pltb k p.1) eqn:E1; [done|]. destruct (pltb p.1 k) eqn:E2; [|done]. cbn [length]. rewrite IH; [done|done|]. apply elem_of_cons in Hin as [<-|?]; [|done]. cbn [fst] in E2. apply Is_true_true in E2. rewrite pltb_spec in E2. lia.
Qed.
Lemma mdel_len k m v : (k, v) ∈ m -> (length (mdel k m) < length m)%nat.
Proof. intros H. unfold mdel. apply filter_length_lt with (k, v); [done|]. cbn. tauto. Qed.
