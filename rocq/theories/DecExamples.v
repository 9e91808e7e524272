(** Transfer between two distributions: final form of the lemmas, cases. *)
From Coq Require Import ZifyBool ZifyNat.
From Verif Require Import Base SearchSpec IndexSpec StrModel StrSpec BlkModel BlkSpec BlkProofs BlkProofs2 BlkProofs3 DecModel DecProofs DecProofs2.

Theorem transfer_ok {A} N tS tT gS gT (svals tvals : list (list A)) : distributed tS gS -> distributed tT gT -> t_nb tS = t_nb tT -> increasing gS -> increasing gT ->
  (forall w, 0 <= w < N <-> w ∈ gS \/ w ∈ gT) -> (forall w, w ∈ gS -> w ∈ gT -> False) -> 4 <= N ->
  zlen svals = zlen gS -> zlen tvals = zlen gT -> (forall p v, svals @ p = Some v -> getNbLocalElements tS p = Ok (zlen v)) -> (forall q v, tvals @ q = Some v -> getNbLocalElements tT q = Ok (zlen v)) ->
  exists out, exchange N tS tT svals tvals = Ok out /\ zlen out = zlen gT /\ (forall q o, out @ q = Some o -> getNbLocalElements tT q = Ok (zlen o)) /\
    forall x p l q m, 0 <= x < t_nb tS -> globalToLocal tS x = Ok (p, l) -> globalToLocal tT x = Ok (q, m) -> exists v o y, svals @ p = Some v /\ v @ l = Some y /\ out @ q = Some o /\ o @ m = Some y.
Proof.
  intros DS DT Hnb IS IT HW _ HN HS HT HSl HTl.
  assert (W := exchange_wp N tS tT gS gT DS DT Hnb IS IT HN (fun w Hw => proj2 (HW w) (or_introl Hw)) (fun w Hw => proj2 (HW w) (or_intror Hw)) svals HS).
  specialize (W ltac:(intros p v Hv; pose proof (zlook_Some_lt _ _ _ Hv) as Hp; rewrite HS in Hp; destruct (cnt_ok tS gS DS p Hp) as [E _]; rewrite (HSl p v Hv) in E; injection E; lia) tvals HT).
  specialize (W ltac:(intros p v Hv; pose proof (zlook_Some_lt _ _ _ Hv) as Hp; rewrite HT in Hp; destruct (cnt_ok tT gT DT p Hp) as [E _]; rewrite (HTl p v Hv) in E; injection E; lia)).
  destruct (exchange N tS tT svals tvals) as [out| | |]; cbn [wp] in W; [|done..]. destruct W as (W1 & W2 & W3). exists out. split; [done|]. split; [done|]. split; [|done].
  intros q o Ho. pose proof (zlook_Some_lt _ _ _ Ho) as Hq. destruct (zlook_lt tvals q) as [v Hv]; [lia|]. destruct (W3 q o v Ho Hv) as [-> _]. by apply HTl.
Qed.
Theorem transfer_refused {A} N tS tT gS gT (svals tvals : list (list A)) : distributed tS gS -> distributed tT gT -> increasing gS -> increasing gT -> t_nb tS <> t_nb tT -> exchange N tS tT svals tvals = Throw.
Proof.
  intros DS DT IS IT H. unfold exchange. rewrite (broadcast_same tS gS DS IS), (broadcast_same tT gT DT IT). cbn. by replace (t_nb tS =? t_nb tT) with false by lia.
Qed.

Lemma inc2 a b : a < b -> increasing [a; b].
Proof.
  intros H i j x y Hij Hx Hy. pose proof (zlook_Some_lt _ _ _ Hx) as Hi. pose proof (zlook_Some_lt _ _ _ Hy) as Hj. change (zlen [a; b]) with 2 in *. assert (i = 0) as -> by lia. assert (j = 1) as -> by lia. injection Hx as <-. injection Hy as <-. done.
Qed.
Lemma world4 a b c d : (forall w, w ∈ [a; b; c; d] <-> 0 <= w < 4) -> forall w, 0 <= w < 4 <-> w ∈ [a; b] \/ w ∈ [c; d].
Proof. intros H w. rewrite <- H. rewrite <- elem_of_app. done. Qed.
Lemma transfer_some : exists tS tT, fromGrid [0; 2] [5; 2] = Ok tS /\ fromCounts [1; 3] [3; 7] = Ok tT /\ distributed tS [0; 2] /\ distributed tT [1; 3] /\ t_nb tS = t_nb tT /\ increasing [0; 2] /\ increasing [1; 3] /\
  (forall w, 0 <= w < 4 <-> w ∈ [0; 2] \/ w ∈ [1; 3]) /\ (forall p v, [[10; 11; 12; 13; 14; 15]; [20; 21; 22; 23]] @ p = Some v -> getNbLocalElements tS p = Ok (zlen v)) /\
  (forall q v, [[0; 0; 0]; [0; 0; 0; 0; 0; 0; 0]] @ q = Some v -> getNbLocalElements tT q = Ok (zlen v)) /\
  exchange 4 tS tT [[10; 11; 12; 13; 14; 15]; [20; 21; 22; 23]] [[0; 0; 0]; [0; 0; 0; 0; 0; 0; 0]] = Ok [[10; 11; 12]; [13; 14; 15; 20; 21; 22; 23]].
Proof.
  destruct (fromGrid_ok [0; 2] 5 [2]) as (tS & aS & ES & DS & _); [done|lia|by repeat constructor|].
  destruct (fromCounts_ok [1; 3] [3; 7]) as (tT & aT & ET & DT & _); [done|done|by repeat constructor|].
  exists tS, tT. split; [done|]. split; [done|]. split; [done|]. split; [done|]. vm_compute in ES. vm_compute in ET. injection ES as <-. injection ET as <-.
  split; [done|]. split; [by apply inc2|]. split; [by apply inc2|]. split; [apply world4; intros w; set_unfold; lia|].
  split; [|split].
  - intros p v Hv. pose proof (zlook_Some_lt _ _ _ Hv) as Hp. change (zlen _) with 2 in Hp. assert (p = 0 \/ p = 1) as [-> | ->] by lia; injection Hv as <-; vm_compute; done.
  - intros p v Hv. pose proof (zlook_Some_lt _ _ _ Hv) as Hp. change (zlen _) with 2 in Hp. assert (p = 0 \/ p = 1) as [-> | ->] by lia; injection Hv as <-; vm_compute; done.
  - vm_compute. done.
Qed.
(** Two processes: entries that do not exist are printed. *)
Lemma few_bad : exists tS tT, fromGrid [0] [4] = Ok tS /\ fromGrid [1] [4] = Ok tT /\ distributed tS [0] /\ distributed tT [1] /\ exchange 2 tS tT [[10; 11; 20; 21]] [[0; 0; 0; 0]] = UB.
Proof.
  destruct (fromGrid_ok [0] 4 []) as (tS & aS & ES & DS & _); [done|lia|by repeat constructor|].
  destruct (fromGrid_ok [1] 4 []) as (tT & aT & ET & DT & _); [done|lia|by repeat constructor|].
  exists tS, tT. split; [done|]. split; [done|]. split; [done|]. split; [done|]. vm_compute in ES. vm_compute in ET. injection ES as <-. injection ET as <-. vm_compute. done.
Qed.
(** A group given in another order. *)
Lemma order_bad : exists tS tT out o, fromGrid [2; 0] [4] = Ok tS /\ fromCounts [1; 3] [4; 0] = Ok tT /\ distributed tS [2; 0] /\ distributed tT [1; 3] /\
  exchange 4 tS tT [[10; 11]; [20; 21]] [[0; 0; 0; 0]; []] = Ok out /\ globalToLocal tS 0 = Ok (0, 0) /\ globalToLocal tT 0 = Ok (0, 0) /\ out @ 0 = Some o /\ o @ 0 = Some 20.
Proof.
  destruct (fromGrid_ok [2; 0] 4 []) as (tS & aS & ES & DS & _); [done|lia|by repeat constructor|].
  destruct (fromCounts_ok [1; 3] [4; 0]) as (tT & aT & ET & DT & _); [done|done|by repeat constructor|].
  exists tS, tT. eexists _, _. split; [done|]. split; [done|]. split; [done|]. split; [done|]. vm_compute in ES. vm_compute in ET. injection ES as <-. injection ET as <-. split; [vm_compute; reflexivity|]. split; [vm_compute; done|]. split; [vm_compute; done|]. split; [reflexivity|]. done.
Qed.
