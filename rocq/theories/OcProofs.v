From Verif Require Import CellModel Base DataArray StdModel IndexModel SkyModel UmModel DsModel OcModel.
From Coq Require Import ZifyBool ZifyNat.

Section core.
  Context (d dI rD rDI dsi : list Z) (segs : list (Z * Z)).
  Definition hasp (i p : Z) : Prop := exists a b, segs @ i = Some (a, b) /\ (p = a \/ p = b).
  Definition share (i j : Z) : Prop := exists p, hasp i p /\ hasp j p.
  Hypothesis Hends : forall i a b, segs @ i = Some (a, b) -> a <> b /\ 0 <= a /\ 0 <= b /\ exists o, dI @ i = Some o /\ d @ o = Some a /\ d @ (o + 1) = Some b.
  Hypothesis Hpts : forall i p, hasp i p -> (dsi @ p = Some 1 /\ forall t, hasp t p -> t = i) \/
    (dsi @ p = Some 2 /\ exists k s1 s2, rDI @ p = Some k /\ rD @ k = Some s1 /\ rD @ (k + 1) = Some s2 /\ s1 <> s2 /\ forall t, hasp t p <-> t = s1 \/ t = s2).

  (** every segment at the point is in the list *)
  Definition sat (l : list Z) (p : Z) : Prop := forall t, hasp t p -> t ∈ l.
  Definition closed (l : list Z) : Prop := forall s p, s ∈ l -> hasp s p -> sat l p.
  Definition exit (dir : bool) (a b prev : Z) : Z := if dir then (if a =? prev then b else a) else (if b =? prev then a else b).
  Definition chain (l : list Z) : Prop := forall k i j, l @ k = Some i -> l @ (k + 1) = Some j -> share i j.
  Definition endof (dir : bool) (l : list Z) (x : Z) : Prop := if dir then exists r, l = x :: r else exists r, l = r ++ [x].
  Definition push (dir : bool) (l : list Z) (x : Z) : list Z := if dir then x :: l else l ++ [x].
  (** the segments not used are the others *)
  Definition left_over (done l edges : list Z) : Prop := NoDup edges /\ NoDup (done ++ l) /\ (forall e, e ∈ edges <-> (0 <= e < zlen segs /\ e ∉ done /\ e ∉ l)) /\ (forall e, e ∈ done ++ l -> 0 <= e < zlen segs).

  Lemma hasp_range i p : hasp i p -> 0 <= i < zlen segs.
  Proof. intros (a & b & H & _). by apply zlook_Some_lt in H. Qed.
  Lemma share_sym i j : share i j -> share j i.
  Proof. intros (p & ? & ?). by exists p. Qed.
  Lemma chain_push dir l x y : chain l -> endof dir l x -> share x y -> chain (push dir l y).
  Proof.
    intros HC HE HS. destruct dir; cbn [endof push] in *; destruct HE as (r & ->); intros k i j Hi Hj.
    - pose proof (zlook_Some_lt _ _ _ Hi). rewrite zlook_cons in Hi, Hj by lia. destruct (Z.eqb_spec k 0) as [->|N].
      + injection Hi as <-. cbn in Hj. injection Hj as <-. by apply share_sym.
      + destruct (Z.eqb_spec (k + 1) 0); [lia|]. apply (HC (k - 1)); [done|]. by replace (k - 1 + 1) with (k + 1 - 1) by lia.
    - pose proof (zlook_Some_lt _ _ _ Hi). pose proof (zlook_Some_lt _ _ _ Hj) as B. rewrite !zlen_app in B. change (zlen [x]) with 1 in B. change (zlen [y]) with 1 in B.
      destruct (Z.ltb_spec (k + 1) (zlen (r ++ [x]))) as [L|L].
      + rewrite zlook_app_l in Hi, Hj by lia. by apply (HC k).
      + rewrite zlen_app in L. change (zlen [x]) with 1 in L. assert (k = zlen r) as -> by lia.
        rewrite zlook_app_l in Hi by (rewrite zlen_app; change (zlen [x]) with 1; lia). rewrite zlook_app_r, Z.sub_diag in Hi by lia. injection Hi as <-.
        rewrite zlook_app_r in Hj by (rewrite zlen_app; change (zlen [x]) with 1; lia). rewrite zlen_app in Hj. change (zlen [x]) with 1 in Hj. rewrite Z.sub_diag in Hj. by injection Hj as <-.
  Qed.
  Lemma push_in dir l x y : y ∈ push dir l x <-> y = x \/ y ∈ l.
  Proof. destruct dir; cbn [push]; set_solver. Qed.
  Lemma push_end dir l x : endof dir (push dir l x) x.
  Proof. destruct dir; cbn; by eexists. Qed.
  Lemma closed_out l s t p : closed l -> s ∉ l -> hasp s p -> hasp t p -> t ∉ l.
  Proof. intros HC Hs H1 H2 Ht. apply Hs. by apply (HC t p). Qed.

  (** the state at the head of the loop once [active] is in the piece, up to the end of the piece *)
  Lemma step_tail fuel dir done l edges active prev a b w :
    (forall active' ptId, hasp active ptId -> hasp active' ptId -> (forall u, hasp u ptId -> u = active \/ u = active') -> exit dir a b prev = ptId -> active' ∈ edges ->
        exists l' e', walk fuel d dI rD rDI dsi dir active' ptId l edges = Ok (l', e') /\ w l' e') ->
    (sat l (exit dir a b prev) -> w l edges) ->
    closed done -> left_over done l edges -> segs @ active = Some (a, b) -> active ∈ l ->
    exists l' e', (let* o := rd dI active in
      let* ptId1 := rd d o in
      let* ptId2 := rd d (o + 1) in
      let ptId := if dir then (if ptId1 =? prev then ptId2 else ptId1) else (if ptId2 =? prev then ptId1 else ptId2) in
      let* nb := rd dsi ptId in
      if nb =? 1 then Ok (l, edges) else
      let* k := rd rDI ptId in
      let* seg1 := rd rD k in
      let* seg2 := rd rD (k + 1) in
      let active := if seg1 =? active then seg2 else seg1 in
      if bool_decide (active ∈ l) then Ok (l, edges) else walk fuel d dI rD rDI dsi dir active ptId l edges) = Ok (l', e') /\ w l' e'.
  Proof using Hends Hpts.
    intros HW HE HCl HL Hs Hin. destruct (Hends _ _ _ Hs) as (Hab & Ha & Hb & o & Ho & Hda & Hdb).
    rewrite (rd_ok _ _ _ Ho). cbn [bind]. rewrite (rd_ok _ _ _ Hda). cbn [bind]. rewrite (rd_ok _ _ _ Hdb). cbn [bind]. fold (exit dir a b prev). set (p := exit dir a b prev) in *.
    assert (Hp : hasp active p). { exists a, b. split; [done|]. unfold p, exit. destruct dir, (_ =? prev); auto. }
    destruct (Hpts _ _ Hp) as [(H1 & HU)|(H2 & k & s1 & s2 & Hk & H3 & H4 & N & HU)].
    - rewrite (rd_ok _ _ _ H1). cbn [bind Z.eqb Pos.eqb]. exists l, edges. split; [done|]. apply HE. intros t Ht. by rewrite (HU t Ht).
    - rewrite (rd_ok _ _ _ H2). cbn [bind Z.eqb Pos.eqb]. rewrite (rd_ok _ _ _ Hk). cbn [bind]. rewrite (rd_ok _ _ _ H3). cbn [bind]. rewrite (rd_ok _ _ _ H4). cbn [bind].
      set (t := if s1 =? active then s2 else s1).
      assert (Ht : hasp t p /\ forall u, hasp u p -> u = active \/ u = t).
      { pose proof (proj1 (HU active) Hp) as Hx. unfold t. destruct (Z.eqb_spec s1 active) as [->|N1].
        - split; [apply HU; by right|]. intros u Hu. by apply HU.
        - destruct Hx as [->| ->]; [done|]. split; [apply HU; by left|]. intros u Hu. apply HU in Hu as [->| ->]; auto. }
      destruct Ht as [Ht HT]. case_bool_decide as HB.
      + exists l, edges. split; [done|]. apply HE. intros u Hu. destruct (HT u Hu) as [->| ->]; done.
      + apply HW; try done. destruct HL as (_ & HN & HL & _). apply HL. split; [by apply hasp_range in Ht|]. split; [|done].
        apply (closed_out done active t p HCl); try done. intros Hd. apply NoDup_app in HN as (_ & HN & _). by apply (HN active Hd).
  Qed.

  Lemma filter_left done l edges x dir : left_over done l edges -> x ∈ edges -> left_over done (push dir l x) (filter (fun e => e <> x) edges).
  Proof.
    intros (H1 & H2 & H3 & H4) Hx. destruct (proj1 (H3 x) Hx) as (R & D & L). split; [by apply NoDup_filter|]. split.
    - apply NoDup_app in H2 as (N1 & N2 & N3). apply NoDup_app. split; [done|]. split.
      + intros y Hy. rewrite push_in. intros [->|Hl]; [done|by apply (N2 y)].
      + destruct dir; cbn [push]; [by constructor|]. apply NoDup_app. split; [done|]. split; [|apply NoDup_singleton]. intros y Hy ->%elem_of_list_singleton. done.
    - split.
      + intros e. rewrite elem_of_list_filter, H3, push_in. tauto.
      + intros e. rewrite elem_of_app, push_in. intros [He|[->|He]]; [apply H4; set_solver|done|apply H4; set_solver].
  Qed.
  Lemma lo_perm done l edges : left_over done l edges -> edges ++ done ++ l ≡ₚ seqZ 0 (zlen segs).
  Proof.
    intros (H1 & H2 & H3 & H4). apply NoDup_Permutation.
    - apply NoDup_app. split; [done|]. split; [|done]. intros e He. apply H3 in He as (_ & ? & ?). rewrite elem_of_app. tauto.
    - apply NoDup_seqZ.
    - intros e. rewrite elem_of_seqZ, elem_of_app, H3. split.
      + intros [H|H]; [lia|]. specialize (H4 e H). lia.
      + intros H. destruct (decide (e ∈ done ++ l)) as [|N]; [by right|]. left. rewrite elem_of_app in N. split; [lia|tauto].
  Qed.
  Lemma lo_len done l edges : left_over done l edges -> zlen edges + zlen done + zlen l = zlen segs.
  Proof. intros H%lo_perm%Permutation_length. rewrite !app_length, seqZ_length in H. pose proof (zlen_nonneg segs). unfold zlen in *. lia. Qed.
  Lemma filter_short edges (x : Z) : x ∈ edges -> (length (filter (fun e => e <> x) edges) < length edges)%nat.
  Proof.
    induction edges as [|e r IH]; [by intros ?%elem_of_nil|]. rewrite filter_cons. intros [->|H]%elem_of_cons.
    - rewrite decide_False by (intros N; by apply N). pose proof (filter_length (fun e0 => e0 <> e) r). cbn. lia.
    - destruct (decide (e <> x)); cbn; specialize (IH H); lia.
  Qed.

  Definition kept (dir : bool) (l l' : list Z) : Prop := if dir then True else forall x, (exists r, l = x :: r) -> exists r, l' = x :: r.
  (** a walk that has just reached a segment not used: the points of the piece are saturated but [q] and the point of the walk *)
  Lemma walk_ok fuel : forall dir done l edges active prev q, (length edges < fuel)%nat -> closed done -> left_over done l edges -> active ∈ edges ->
    hasp active prev -> chain (push dir l active) -> sat (push dir l active) prev ->
    (forall s p, s ∈ l -> hasp s p -> sat (push dir l active) p \/ p = q) ->
    exists l' e', walk fuel d dI rD rDI dsi dir active prev l edges = Ok (l', e') /\ left_over done l' e' /\ chain l' /\ kept dir l l' /\ l' <> [] /\
      (forall s p, s ∈ l' -> hasp s p -> sat l' p \/ p = q).
  Proof using Hends Hpts.
    induction fuel as [|fuel IH]; intros dir done l edges active prev q Hf HCl HL Ha Hprev HC HSP HS; [lia|].
    cbn [walk]. assert (0 < zlen edges). { unfold zlen. destruct edges; [by apply elem_of_nil in Ha|cbn; lia]. }
    destruct Hprev as (a & b & Hs & Hpab). destruct (Hends _ _ _ Hs) as (Hab & Ha0 & Hb0 & _).
    replace (zlen edges =? 0) with false by lia. replace (prev =? -20) with false by lia. rewrite andb_false_r. fold (push dir l active).
    pose proof (filter_left done l edges active dir HL Ha) as HL'. pose proof (filter_short edges active Ha) as Hsh.
    set (l1 := push dir l active) in *. set (e1 := filter _ edges) in *.
    assert (Hin : active ∈ l1) by (apply push_in; by left).
    assert (K1 : kept dir l l1). { unfold kept, l1. destruct dir; [done|]. intros x (r & ->). by exists (r ++ [active]). }
    assert (PT : forall p, hasp active p -> p = prev \/ p = exit dir a b prev).
    { intros p (a' & b' & Hs' & Hp). rewrite Hs in Hs'. injection Hs' as <- <-. unfold exit. destruct dir, (Z.eqb_spec a prev), (Z.eqb_spec b prev); destruct Hp as [->| ->], Hpab as [->| ->]; try tauto; congruence. }
    apply (step_tail fuel dir done l1 e1 active prev a b (fun l' e' => left_over done l' e' /\ chain l' /\ kept dir l l' /\ l' <> [] /\ (forall s p, s ∈ l' -> hasp s p -> sat l' p \/ p = q))); try done.
    - intros t p Hap Htp HU Hex Ht.
      destruct (IH dir done l1 e1 t p q) as (l' & e' & E & R1 & R2 & R3 & R4 & R5); try done.
      + lia.
      + apply (chain_push dir l1 active t); [done|apply push_end|by exists p].
      + intros u Hu. rewrite push_in. destruct (HU u Hu) as [->| ->]; auto.
      + assert (MON : forall x, sat l1 x -> sat (push dir l1 t) x) by (intros x Hx u Hu; apply push_in; right; by apply Hx).
        intros s x Hsl Hsx. apply push_in in Hsl as [->|Hsl].
        * destruct (PT x Hsx) as [->| ->]; [left; by apply MON|]. left. rewrite Hex. intros u Hu. rewrite push_in. destruct (HU u Hu) as [->| ->]; auto.
        * destruct (HS s x Hsl Hsx) as [H1|H1]; [left; by apply MON|by right].
      + exists l', e'. split; [done|]. split; [done|]. split; [done|]. split; [|by split]. unfold kept in *. destruct dir; [done|]. intros x Hx. by apply R3, K1.
    - intros HE. split; [done|]. split; [done|]. split; [done|]. split; [intros E; rewrite E in Hin; by apply elem_of_nil in Hin|]. intros s p Hsl Hsp. apply push_in in Hsl as [->|Hsl]; [|by apply (HS s p)].
      left. destruct (PT p Hsp) as [->| ->]; done.
  Qed.
  Lemma forward_ok fuel done edges start a b : (length edges < fuel)%nat -> closed done -> left_over done [] edges -> start ∈ edges -> segs @ start = Some (a, b) ->
    exists l' e', walk fuel d dI rD rDI dsi false start (-20) [] edges = Ok (l', e') /\ left_over done l' e' /\ chain l' /\ (exists r, l' = start :: r) /\
      (forall s p, s ∈ l' -> hasp s p -> sat l' p \/ p = a).
  Proof using Hends Hpts.
    destruct fuel as [|fuel]; [lia|]. intros Hf HCl HL Ha Hs. cbn [walk]. assert (0 < zlen edges). { unfold zlen. destruct edges; [by apply elem_of_nil in Ha|cbn; lia]. }
    destruct (Hends _ _ _ Hs) as (Hab & Ha0 & Hb0 & _). replace (zlen edges =? 0) with false by lia. cbn [andb app].
    pose proof (filter_left done [] edges start false HL Ha) as HL'. pose proof (filter_short edges start Ha) as Hsh. cbn [push app] in HL'. set (e1 := filter _ edges) in *.
    assert (C1 : chain [start]). { intros k i j Hi Hj. apply zlook_Some_lt in Hi, Hj. change (zlen [start]) with 1 in *. lia. }
    assert (PT : forall p, hasp start p -> p = a \/ p = exit false a b (-20)).
    { intros p (a' & b' & Hs' & Hp). rewrite Hs in Hs'. injection Hs' as <- <-. unfold exit. replace (b =? -20) with false by lia. tauto. }
    apply (step_tail fuel false done [start] e1 start (-20) a b (fun l' e' => left_over done l' e' /\ chain l' /\ (exists r, l' = start :: r) /\ (forall s p, s ∈ l' -> hasp s p -> sat l' p \/ p = a))); try done.
    - intros t p Hap Htp HU Hex Ht.
      destruct (walk_ok fuel false done [start] e1 t p a) as (l' & e' & E & R1 & R2 & R3 & R4 & R5); try done.
      + lia.
      + apply (chain_push false [start] start t); [done|by exists []|by exists p].
      + intros u Hu. rewrite push_in. destruct (HU u Hu) as [->| ->]; [right; by left|by left].
      + intros s x ->%elem_of_list_singleton Hsx. destruct (PT x Hsx) as [->| ->]; [by right|]. left. rewrite Hex. intros u Hu. rewrite push_in. destruct (HU u Hu) as [->| ->]; [right; by left|by left].
      + exists l', e'. split; [done|]. split; [done|]. split; [done|]. split; [|done]. apply R3. by exists [].
    - intros HE. split; [done|]. split; [done|]. split; [by exists []|]. intros s p ->%elem_of_list_singleton Hsp. destruct (PT p Hsp) as [->| ->]; [by right|by left].
    - by left.
  Qed.
  Lemma backward_ok fuel done l edges start a b : (length edges + 1 < fuel)%nat -> closed done -> left_over done l edges -> chain l -> (exists r, l = start :: r) -> segs @ start = Some (a, b) ->
    (forall s p, s ∈ l -> hasp s p -> sat l p \/ p = a) ->
    exists l' e', walk fuel d dI rD rDI dsi true start (-20) l edges = Ok (l', e') /\ left_over done l' e' /\ chain l' /\ l' <> [] /\ closed l'.
  Proof using Hends Hpts.
    destruct fuel as [|fuel]; [lia|]. intros Hf HCl HL HC Hst Hs HS. cbn [walk]. destruct (Hends _ _ _ Hs) as (Hab & Ha0 & Hb0 & _).
    assert (Hin : start ∈ l) by (destruct Hst as (r & ->); by left). assert (Hne : l <> []) by (by destruct Hst as (r & ->)).
    destruct (Z.eqb_spec (zlen edges) 0) as [E0|E0].
    - exists l, edges. split; [done|]. split; [done|]. split; [done|]. split; [done|]. intros s p Hsl Hsp t Ht. destruct edges; [|rewrite zlen_cons in E0; pose proof (zlen_nonneg edges); lia].
      destruct HL as (_ & HN & HL & _). destruct (decide (t ∈ l)) as [|N]; [done|]. destruct (decide (t ∈ done)) as [Hd|Nd].
      + assert (Hsd : s ∈ done) by (by apply (HCl t p)). apply NoDup_app in HN as (_ & HN & _). by destruct (HN s Hsd).
      + assert (HX : t ∈ []) by (apply HL; split; [by apply hasp_range in Ht|done]). by apply elem_of_nil in HX.
    - cbn [andb Z.eqb Z.opp Pos.eqb].
      assert (PE : exit true a b (-20) = a) by (unfold exit; by replace (a =? -20) with false by lia).
      apply (step_tail fuel true done l edges start (-20) a b (fun l' e' => left_over done l' e' /\ chain l' /\ l' <> [] /\ closed l')); try done.
      + intros t p Hap Htp HU Hex Ht.
        destruct (walk_ok fuel true done l edges t p (-1)) as (l' & e' & E & R1 & R2 & R3 & R4 & R5); try done.
        * lia.
        * apply (chain_push true l start t); [done|by apply Hst|by exists p].
        * intros u Hu. rewrite push_in. destruct (HU u Hu) as [->| ->]; auto.
        * intros s x Hsl Hsx. left. destruct (HS s x Hsl Hsx) as [H1| ->]; [intros u Hu; apply push_in; right; by apply H1|].
          rewrite PE in Hex. subst p. intros u Hu. rewrite push_in. destruct (HU u Hu) as [->| ->]; auto.
        * exists l', e'. split; [done|]. split; [done|]. split; [done|]. split; [done|]. intros s x Hsl Hsx. destruct (R5 s x Hsl Hsx) as [?| ->]; [done|].
          exfalso. destruct Hsx as (a' & b' & Hs' & Hx). destruct (Hends _ _ _ Hs') as (_ & ? & ? & _). lia.
      + rewrite PE. intros HE. split; [done|]. split; [done|]. split; [done|]. intros s p Hsl Hsp. destruct (HS s p Hsl Hsp) as [?| ->]; done.
  Qed.
  Definition good (l : list Z) : Prop := l <> [] /\ chain l /\ closed l.
  Lemma pieces_ok n : forall fuel ps start edges, n = zlen segs -> (length edges < fuel)%nat -> Forall good ps -> left_over (concat ps) [] edges -> start ∈ edges ->
    exists ps', pieces fuel d dI rD rDI dsi n start (concat ps) edges = Ok (concat ps') /\ Forall good ps' /\ left_over (concat ps') [] [].
  Proof using Hends Hpts.
    induction fuel as [|fuel IH]; intros ps start edges -> Hf HG HL Hst; [lia|]. cbn [pieces].
    assert (HCl : closed (concat ps)). { intros s p Hs Hp t Ht. apply elem_of_list_In, in_concat in Hs as (l & Hl & Hs). apply elem_of_list_In in Hl, Hs. rewrite Forall_forall in HG. destruct (HG l Hl) as (_ & _ & HC).
      apply elem_of_list_In, in_concat. exists l. split; [by apply elem_of_list_In|]. apply elem_of_list_In. by apply (HC s p). }
    assert (Hr : 0 <= start < zlen segs) by (destruct HL as (_ & _ & H3 & _); by apply H3). destruct (zlook_lt segs start Hr) as [[a b] Hs].
    pose proof (lo_len _ _ _ HL) as B1. change (zlen (A := Z) []) with 0 in B1. pose proof (zlen_nonneg (concat ps)) as B0.
    destruct (forward_ok (Z.to_nat (zlen segs) + 1) (concat ps) edges start a b) as (l1 & e1 & -> & L1 & C1 & S1 & T1); [unfold zlen in *; lia|done..|]. cbn [bind].
    pose proof (lo_len _ _ _ L1) as B2. assert (0 < zlen l1) by (destruct S1 as (r & ->); rewrite zlen_cons; pose proof (zlen_nonneg r); lia).
    destruct (backward_ok (Z.to_nat (zlen segs) + 1) (concat ps) l1 e1 start a b) as (l2 & e2 & -> & L2 & C2 & N2 & T2); [unfold zlen in *; lia|done..|]. cbn [bind].
    pose proof (lo_len _ _ _ L2) as B3. pose proof (zlen_nonneg e2). replace (zlen segs <? zlen (concat ps) + zlen l2) with false by lia. cbn [ubif].
    assert (EC : concat ps ++ l2 = concat (ps ++ [l2])) by (rewrite concat_app; cbn [concat]; by rewrite app_nil_r). rewrite EC.
    assert (HG2 : Forall good (ps ++ [l2])) by (apply Forall_app; split; [done|by repeat constructor]).
    assert (L3 : left_over (concat (ps ++ [l2])) [] e2).
    { rewrite <- EC. destruct L2 as (N1 & N3 & H1 & H2). rewrite app_nil_r || idtac. split; [done|]. split; [by rewrite app_nil_r|]. split; [|by rewrite app_nil_r]. intros e. rewrite H1, elem_of_app. set_solver. }
    destruct e2 as [|e e2]; [by exists (ps ++ [l2])|]. apply IH; try done; [|by left].
    assert (0 < zlen l2) by (destruct l2; [done|rewrite zlen_cons; pose proof (zlen_nonneg l2); lia]). unfold zlen in *. lia.
  Qed.
  Lemma core_ok n : n = zlen segs -> exists ps, pieces (Z.to_nat n + 1) d dI rD rDI dsi n 0 [] (seqZ 0 n) = Ok (concat ps) /\ Forall good ps /\ concat ps ≡ₚ seqZ 0 n.
  Proof using Hends Hpts.
    intros E. destruct (decide (n = 0)) as [->|N].
    - exists []. done.
    - assert (0 < n) by (pose proof (zlen_nonneg segs); lia).
      destruct (pieces_ok n (Z.to_nat n + 1) [] 0 (seqZ 0 n)) as (ps & E1 & HG & HL); try done.
      + rewrite seqZ_length. lia.
      + split; [apply NoDup_seqZ|]. split; [constructor|]. split; [|set_solver]. intros e. rewrite elem_of_seqZ. cbn [concat]. split; [|lia]. intros ?. split; [lia|]. split; apply not_elem_of_nil.
      + apply elem_of_seqZ. lia.
      + exists ps. split; [done|]. split; [done|]. apply lo_perm in HL. rewrite app_nil_r in HL. by rewrite E.
  Qed.
End core.
