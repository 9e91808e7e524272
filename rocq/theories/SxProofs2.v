(** Proofs: the simplices fill the cell; meshes cut into simplices. *)
From Coq Require Import QArith ZifyBool ZifyNat.
From Verif Require Import Base DataArray IndexSpec FillLib IndexProofs3 CellTable CellModel CellProofs UmModel UmSpec UmProofs UmProofs2 UmProofs10 TyModel TySpec TyProofs2 DgModel DgSpec DgProofs3 DgProofs4 DgProofs5 SxModel SxSpec SxProofs.
Local Open Scope Z_scope.

Definition places0 : list (list Z) := [[0; 1; 2]; [0; 2; 3]].
Definition places1 : list (list Z) := [[0; 1; 3]; [1; 2; 3]].
Definition places5 : list (list Z) := [[0; 5; 1; 2]; [0; 4; 5; 7]; [0; 3; 7; 2]; [5; 7; 6; 2]; [0; 5; 2; 7]].
Definition places6 : list (list Z) := [[0; 5; 1; 6]; [0; 1; 2; 6]; [0; 4; 5; 6]; [0; 7; 4; 6]; [0; 2; 3; 6]; [0; 3; 7; 6]].
Definition outer5 : list (list (list Z)) := [[[0; 1; 2]; [0; 2; 3]]; [[7; 6; 5]; [7; 5; 4]]; [[0; 4; 5]; [0; 5; 1]]; [[5; 6; 2]; [5; 2; 1]]; [[2; 6; 7]; [2; 7; 3]]; [[7; 4; 0]; [7; 0; 3]]].
Definition inner5 : list (list Z) := [[0; 2; 5]; [0; 5; 7]; [0; 7; 2]; [2; 7; 5]].
Definition outer6 : list (list (list Z)) := [[[0; 1; 2]; [0; 2; 3]]; [[4; 7; 6]; [4; 6; 5]]; [[0; 4; 5]; [0; 5; 1]]; [[1; 5; 6]; [1; 6; 2]]; [[6; 7; 3]; [6; 3; 2]]; [[7; 4; 0]; [7; 0; 3]]].
Definition inner6 : list (list Z) := [[0; 6; 5]; [0; 1; 6]; [0; 2; 6]; [0; 6; 4]; [0; 6; 7]; [0; 3; 6]].
Definition over (ps : list (list Z)) (l : list Z) : list cell := (fun p => (NORM_TETRA4, chosen l p)) <$> ps.

Lemma turned_map (f : Z -> Z) a b : turned a b -> turned (f <$> a) (f <$> b).
Proof. intros [k ->]. exists k. by rewrite fmap_app, fmap_drop, fmap_take. Qed.
Lemma same_map (f : Z -> Z) F G : same_faces F G -> same_faces (fmap (M := list) f <$> F) (fmap (M := list) f <$> G).
Proof.
  intros (G' & HP & HF). exists (fmap (M := list) f <$> G'). split; [by rewrite HP|]. apply Forall2_fmap. eapply Forall2_impl; [exact HF|]. intros a b. apply turned_map.
Qed.
Definition cutb (f : list Z) (ts : list (list Z)) : bool := match ts with [[a; b; c]; [a'; c'; d]] => (a =? a') && (c =? c') && turnedb f [a; b; c; d] | _ => false end.
Lemma cutb_ok f ts : cutb f ts = true -> cut_face f ts.
Proof.
  unfold cutb. destruct ts as [|[|a [|b [|c [|]]]] [|[|a' [|c' [|d [|]]]] [|]]]; try done. rewrite !andb_true_iff. intros [[H1 H2] H3]. assert (a' = a) as -> by lia. assert (c' = c) as -> by lia. exists a, b, c, d. split; [by apply turnedb_ok|done].
Qed.
Lemma cut_map (f : Z -> Z) g ts : cut_face g ts -> cut_face (f <$> g) (fmap (M := list) f <$> ts).
Proof. intros (a & b & c & d & Ht & ->). exists (f a), (f b), (f c), (f d). split; [|done]. apply (turned_map f) in Ht. exact Ht. Qed.
Fixpoint cutsb (F : list (list Z)) (Os : list (list (list Z))) : bool := match F, Os with [], [] => true | f :: F, o :: Os => cutb f o && cutsb F Os | _, _ => false end.
Lemma cutsb_ok F : forall Os, cutsb F Os = true -> Forall2 cut_face F Os.
Proof. induction F as [|f F IH]; intros [|o Os]; try done. simpl. rewrite andb_true_iff. intros [H1 H2]. constructor; [by apply cutb_ok|by apply IH]. Qed.

Lemma fills (ps : list (list Z)) outer inner : cutsb (face_places NORM_HEXA8) outer = true ->
  sameb (concat (solid_faces <$> over ps (seqZ 0 8))) (concat outer ++ inner ++ (rev (A := Z) <$> inner)) = true ->
  (forall l, zlen l = 8 -> concat (solid_faces <$> over ps l) = fmap (M := list) (at_ l) <$> concat (solid_faces <$> over ps (seqZ 0 8))) ->
  forall l, zlen l = 8 -> fills_solid (NORM_HEXA8, l) (over ps l).
Proof.
  intros Hc%cutsb_ok Hs%sameb_ok Hf l Hl. exists (fmap (M := list) (fmap (M := list) (at_ l)) <$> outer), (fmap (M := list) (at_ l) <$> inner). split.
  - replace (solid_faces (NORM_HEXA8, l)) with (fmap (M := list) (at_ l) <$> face_places NORM_HEXA8).
    + apply Forall2_fmap. eapply Forall2_impl; [exact Hc|]. intros a b. apply cut_map.
    + apply len_nat in Hl. destruct l as [|? [|? [|? [|? [|? [|? [|? [|? [|]]]]]]]]]; try discriminate Hl. reflexivity.
  - rewrite (Hf l Hl). apply (same_map (at_ l)) in Hs. revert Hs. rewrite !fmap_app. unfold same_faces. intros (G & HP & HF). exists G. split; [|exact HF]. rewrite HP.
    assert (forall (Os : list (list (list Z))), fmap (M := list) (at_ l) <$> concat Os = concat (fmap (M := list) (fmap (M := list) (at_ l)) <$> Os)) as -> by (clear; induction Os; [done|]; simpl; rewrite fmap_app; by f_equal).
    apply Permutation_app_head, Permutation_app_head. rewrite <- !list_fmap_compose. erewrite Forall_fmap_ext_1; [reflexivity|]. apply Forall_forall. intros x _. unfold compose. clear. induction x as [|y x IH]; [done|]. simpl. rewrite fmap_app, IH. done.
Qed.
Lemma explicit8 (ps : list (list Z)) : ps = places5 \/ ps = places6 -> forall l, zlen l = 8 -> concat (solid_faces <$> over ps l) = fmap (M := list) (at_ l) <$> concat (solid_faces <$> over ps (seqZ 0 8)).
Proof.
  intros Hps l Hl. apply len_nat in Hl. destruct l as [|? [|? [|? [|? [|? [|? [|? [|? [|]]]]]]]]]; try discriminate Hl. destruct Hps as [->| ->]; reflexivity.
Qed.
Lemma fills5 l : zlen l = 8 -> fills_solid (NORM_HEXA8, l) (over places5 l).
Proof. apply (fills places5 outer5 inner5); [vm_compute; reflexivity|vm_compute; reflexivity|]. apply explicit8. by left. Qed.
Lemma fills6 l : zlen l = 8 -> fills_solid (NORM_HEXA8, l) (over places6 l).
Proof. apply (fills places6 outer6 inner6); [vm_compute; reflexivity|vm_compute; reflexivity|]. apply explicit8. by right. Qed.

Lemma quad0 c : c.1 = NORM_QUAD4 -> zlen c.2 = 4 -> cut_into 0 c (outOf NORM_QUAD4 NORM_TRI3 places0 c).
Proof.
  destruct c as [t l]. cbn [fst snd]. intros -> Hl%len_nat. destruct l as [|a [|b [|c [|d [|]]]]]; try discriminate Hl. split; [done|]. intros _. exists [a; b; c], [a; c; d]. split; [done|]. split; [done|]. split; [done|].
  split; [|cbn; intros n; set_solver]. exists c, a. exact (Permutation_app_head [(a, b); (b, c)] (Permutation_app_comm [(c, a); (a, c)] [(c, d); (d, a)])).
Qed.
Lemma quad1 c : c.1 = NORM_QUAD4 -> zlen c.2 = 4 -> cut_into 1 c (outOf NORM_QUAD4 NORM_TRI3 places1 c).
Proof.
  destruct c as [t l]. cbn [fst snd]. intros -> Hl%len_nat. destruct l as [|a [|b [|c [|d [|]]]]]; try discriminate Hl. split; [done|]. intros _. exists [a; b; d], [b; c; d]. split; [done|]. split; [done|]. split; [done|].
  split; [|cbn; intros n; set_solver]. exists b, d. cbn. apply perm_skip. etransitivity; [exact (Permutation_app_swap_app [(b, d); (d, a)] [(b, c); (c, d)] [(d, b)])|]. cbn. apply perm_skip, perm_skip, perm_swap.
Qed.
Lemma hexa policy ps c : (policy, ps) ∈ [(5, places5); (6, places6)] -> c.1 = NORM_HEXA8 -> zlen c.2 = 8 -> cut_into policy c (outOf NORM_HEXA8 NORM_TETRA4 ps c).
Proof.
  destruct c as [t l]. cbn [fst snd]. intros Hp -> Hl. assert (outOf NORM_HEXA8 NORM_TETRA4 ps (NORM_HEXA8, l) = over ps l) as -> by done.
  assert (fills_solid (NORM_HEXA8, l) (over ps l) /\ zlen ps = policy /\ (policy =? 0) || (policy =? 1) = false /\ forall p, p ∈ ps -> zlen p = 4 /\ forall i, i ∈ p -> 0 <= i < 8) as (Hf & Hn & Hpol & H4).
  { rewrite !elem_of_cons in Hp. destruct Hp as [[= -> ->]|[[= -> ->]|Hp%elem_of_nil]]; [..|done].
    - split; [by apply fills5|]. split; [done|]. split; [done|]. intros p Hp. unfold places5 in Hp. repeat (apply elem_of_cons in Hp as [->|Hp]; [split; [done|]; intros i Hi; repeat (apply elem_of_cons in Hi as [->|Hi]; [lia|]); by apply elem_of_nil in Hi|]). by apply elem_of_nil in Hp.
    - split; [by apply fills6|]. split; [done|]. split; [done|]. intros p Hp. unfold places6 in Hp. repeat (apply elem_of_cons in Hp as [->|Hp]; [split; [done|]; intros i Hi; repeat (apply elem_of_cons in Hi as [->|Hi]; [lia|]); by apply elem_of_nil in Hi|]). by apply elem_of_nil in Hp. }
  unfold cut_into. rewrite Hpol. split; [done|]. intros _. split; [unfold over; by rewrite zlen_fmap|]. split; [|done]. intros t Ht. unfold over in Ht. apply elem_of_list_fmap in Ht as (p & -> & Hpp). split; [done|]. cbn [snd]. destruct (H4 p Hpp) as [L4 Hi]. rewrite chosen_at, zlen_fmap; [done|]. by rewrite Hl.
Qed.

Lemma simplexize_ok m policy cells : policy ∈ [0; 1; 5; 6] -> um_dim m = (if policy <=? 1 then 2 else 3) -> stores m cells -> typed m cells ->
  (forall c, c ∈ cells -> (c.1 = NORM_QUAD4 -> zlen c.2 = 4) /\ (c.1 = NORM_HEXA8 -> zlen c.2 = 8)) ->
  exists m' css, simplexize m policy = Ok (m', sources css) /\ Forall2 (cut_into policy) cells css /\ stores m' (concat css) /\ typed m' (concat css) /\ um_dim m' = um_dim m /\ um_coords m' = um_coords m.
Proof.
  intros Hp Hd Hs Ht Hc.
  assert (forall cut simplex size more moreConn places dim, um_dim m = dim -> (forall p, p ∈ places -> forall i, i ∈ p -> 0 <= i < size) -> zlen places = 1 + more -> zsum ((fun p => 1 + zlen p) <$> places) = 1 + size + moreConn -> (forall c, c ∈ cells -> c.1 = cut -> zlen c.2 = size) ->
    (forall c, c ∈ cells -> cut_into policy c (outOf cut simplex places c)) ->
    exists m' css, simplexizeCells m dim cut simplex places more moreConn = Ok (m', sources css) /\ Forall2 (cut_into policy) cells css /\ stores m' (concat css) /\ typed m' (concat css) /\ um_dim m' = um_dim m /\ um_coords m' = um_coords m) as G.
  { intros cut simplex size more moreConn places dim H1 H2 H3 H4 H5 H6. destruct (cut_ok cut simplex size more moreConn places H2 H3 H4 m dim cells H1 Hs Ht H5) as (m' & E & A & B & C & D). exists m', (outOf cut simplex places <$> cells). split; [done|]. split; [|done].
    clear -H6. induction cells as [|c cells IH]; [by apply Forall2_nil_2|]. rewrite fmap_cons. constructor; [apply H6, elem_of_list_here|]. apply IH. intros; apply H6; by right. }
  assert (forall (ps : list (list Z)) n, forallb (forallb (fun i => (0 <=? i) && (i <? n))) ps = true -> forall p, p ∈ ps -> forall i, i ∈ p -> 0 <= i < n) as B.
  { intros ps n Hb p Hpp i Hi. rewrite forallb_forall in Hb. apply elem_of_list_In, Hb in Hpp. rewrite forallb_forall in Hpp. apply elem_of_list_In, Hpp in Hi. lia. }
  assert (forall cut simplex (places : list (list Z)) (c : cell), c.1 <> cut -> outOf cut simplex places c = [c]) as K by (intros cut simplex places c E; unfold outOf; destruct (Z.eqb_spec c.1 cut); done).
  rewrite !elem_of_cons in Hp. destruct Hp as [->|[->|[->|[->|Hp%elem_of_nil]]]]; [..|done].
  - apply (G _ _ 4 _ _ places0); [done|by apply B|done|done|intros; by apply Hc|]. intros c Hcc. destruct (decide (c.1 = NORM_QUAD4)) as [E|E]; [apply quad0; [done|by apply Hc]|rewrite K by done; split; [done|]; intros; done].
  - apply (G _ _ 4 _ _ places1); [done|by apply B|done|done|intros; by apply Hc|]. intros c Hcc. destruct (decide (c.1 = NORM_QUAD4)) as [E|E]; [apply quad1; [done|by apply Hc]|rewrite K by done; split; [done|]; intros; done].
  - apply (G _ _ 8 _ _ places5); [done|by apply B|done|done|intros; by apply Hc|]. intros c Hcc. destruct (decide (c.1 = NORM_HEXA8)) as [E|E]; [apply hexa; [set_solver|done|by apply Hc]|rewrite K by done; split; [done|]; intros; done].
  - apply (G _ _ 8 _ _ places6); [done|by apply B|done|done|intros; by apply Hc|]. intros c Hcc. destruct (decide (c.1 = NORM_HEXA8)) as [E|E]; [apply hexa; [set_solver|done|by apply Hc]|rewrite K by done; split; [done|]; intros; done].
Qed.
Lemma simplexize_bad m policy cells : stores m cells -> policy ∉ [0; 1; 5; 6] \/ um_dim m <> (if policy <=? 1 then 2 else 3) -> simplexize m policy = Throw.
Proof.
  intros Hs H. destruct (stores_get m cells Hs) as (conn & connI & Ec & EI & _). unfold simplexize.
  destruct (Z.eqb_spec policy 0) as [->|H0].
  { destruct H as [H|H]; [set_solver|]. change (if 0 <=? 1 then 2 else 3) with 2 in H. unfold simplexizePol0, simplexizeCells, checkConnectivityFullyDefined. rewrite Ec, EI. unfold ifthrow. by replace (um_dim m =? 2) with false by lia. }
  destruct (Z.eqb_spec policy 1) as [->|H1].
  { destruct H as [H|H]; [set_solver|]. change (if 1 <=? 1 then 2 else 3) with 2 in H. unfold simplexizePol1, simplexizeCells, checkConnectivityFullyDefined. rewrite Ec, EI. unfold ifthrow. by replace (um_dim m =? 2) with false by lia. }
  destruct (Z.eqb_spec policy 5) as [->|H5].
  { destruct H as [H|H]; [set_solver|]. change (if 5 <=? 1 then 2 else 3) with 3 in H. unfold simplexizePlanarFace5, simplexizeCells, checkConnectivityFullyDefined. rewrite Ec, EI. unfold ifthrow. by replace (um_dim m =? 3) with false by lia. }
  destruct (Z.eqb_spec policy 6) as [->|H6]; [|done].
  destruct H as [H|H]; [set_solver|]. change (if 6 <=? 1 then 2 else 3) with 3 in H. unfold simplexizePlanarFace6, simplexizeCells, checkConnectivityFullyDefined. rewrite Ec, EI. unfold ifthrow. by replace (um_dim m =? 3) with false by lia.
Qed.
