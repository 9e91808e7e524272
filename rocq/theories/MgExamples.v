(** Meshes for the examples of the merges. *)
From Coq Require Import QArith Qabs ZifyBool ZifyNat.
From Verif Require Import Base DataArray ArrLib IndexSpec RenumSpec TreeModel TreeSpec CellTable UmModel UmSpec UmProofs10 UcProofs6 TyModel TySpec TyExamples MgModel MgSpec MgProofs2.
Local Open Scope Z_scope.

(** Two triangles in the plane, one of them a polygon; a mesh without anything. *)
Definition tri_a : umesh := UM 2 (Some (DA true 2 [0; 0; 1; 0; 0; 1]%Q)) (Some [NORM_TRI3; 0; 1; 2]) (Some [0; 4]) [NORM_TRI3].
Definition tri_b : umesh := UM 2 (Some (DA true 2 [1; 0; 1; 1; 0; 1; 5; 5]%Q)) (Some [NORM_POLYGON; 2; 0; 1]) (Some [0; 4]) [NORM_POLYGON].
Definition bare : umesh := UM 2 None None None [].
Lemma tri_a_stores : stores tri_a [(NORM_TRI3, [0; 1; 2])].
Proof. exact (stores_sel 2 _ [(NORM_TRI3, [0; 1; 2])] [NORM_TRI3]). Qed.
Lemma tri_b_stores : stores tri_b [(NORM_POLYGON, [2; 0; 1])].
Proof. exact (stores_sel 2 _ [(NORM_POLYGON, [2; 0; 1])] [NORM_POLYGON]). Qed.
Lemma tri_a_nodes : nodes_in tri_a 2 3.
Proof. eexists. split; [reflexivity|]. split; [done|]. split; [split; [done|by exists 3]|]. done. Qed.
Lemma tri_b_nodes : nodes_in tri_b 2 4.
Proof. eexists. split; [reflexivity|]. split; [done|]. split; [split; [done|by exists 4]|]. done. Qed.
Lemma merged_example : Forall2 (fun m p => brings m 2 p.1 p.2 /\ um_dim m = 2 /\ separators p.1) [tri_a; bare; tri_b] [([(NORM_TRI3, [0; 1; 2])], 3); ([], 0); ([(NORM_POLYGON, [2; 0; 1])], 4)].
Proof.
  assert (S1 : separators [(NORM_TRI3, [0; 1; 2])]). { intros c v Hc Hv. apply elem_of_list_singleton in Hc as ->. cbn in Hv. rewrite !elem_of_cons, elem_of_nil in Hv. lia. }
  assert (S2 : separators [(NORM_POLYGON, [2; 0; 1])]). { intros c v Hc Hv. apply elem_of_list_singleton in Hc as ->. cbn in Hv. rewrite !elem_of_cons, elem_of_nil in Hv. lia. }
  constructor; [split; [split; [left; exact tri_a_stores|left; exact tri_a_nodes]|done]|]. constructor; [split; [split; [right|right]; done|split; [done|]; intros c v Hc; by apply elem_of_nil in Hc]|]. constructor; [split; [split; [left; exact tri_b_stores|left; exact tri_b_nodes]|done]|]. constructor.
Qed.
Lemma side_example : side_by_side 0 [([(NORM_TRI3, [0; 1; 2])], 3); ([], 0); ([(NORM_POLYGON, [2; 0; 1])], 4)] = [(NORM_TRI3, [0; 1; 2]); (NORM_POLYGON, [5; 3; 4])].
Proof. vm_compute. reflexivity. Qed.

(** The same two cells on the coordinates put together; the nodes they share are doubled. *)
Definition both : da Q := DA true 2 [0; 0; 1; 0; 0; 1; 1; 0; 1; 1; 0; 1; 5; 5]%Q.
Definition on_a : umesh := UM 2 (Some both) (Some [NORM_TRI3; 0; 1; 2]) (Some [0; 4]) [NORM_TRI3].
Definition on_b : umesh := UM 2 (Some both) (Some [NORM_POLYGON; 5; 3; 4]) (Some [0; 4]) [NORM_POLYGON].
Lemma shared_example : Forall2 (fun m cells => stores m cells /\ typed m cells /\ um_coords m = Some both /\ forall n, used cells n -> n < 7) [on_a; on_b] [[(NORM_TRI3, [0; 1; 2])]; [(NORM_POLYGON, [5; 3; 4])]].
Proof.
  constructor; [|constructor; [|constructor]].
  - split; [exact (stores_sel 2 _ [(NORM_TRI3, [0; 1; 2])] [NORM_TRI3])|]. split; [by apply typed_types|]. split; [done|]. intros n (_ & c & Hc & Hn). apply elem_of_list_singleton in Hc as ->. cbn in Hn. rewrite !elem_of_cons, elem_of_nil in Hn. lia.
  - split; [exact (stores_sel 2 _ [(NORM_POLYGON, [5; 3; 4])] [NORM_POLYGON])|]. split; [by apply typed_types|]. split; [done|]. intros n (_ & c & Hc & Hn). apply elem_of_list_singleton in Hc as ->. cbn in Hn. rewrite !elem_of_cons, elem_of_nil in Hn. lia.
Qed.
Lemma both_near : transitive_on 7 (fun i j => near (da_vals both) (da_nc both) i (1#10) (da_vals both) j).
Proof.
  set (nb := fun i j => forallb (fun k => Qle_bool (Qabs (at_ (da_vals both) 2 i k - at_ (da_vals both) 2 j k)) (Qabs (1#10))) [0; 1]).
  assert (Hnb : forall i j, near (da_vals both) (da_nc both) i (1#10) (da_vals both) j <-> nb i j = true).
  { intros i j. unfold nb. cbn [forallb]. rewrite !andb_true_iff, !Qle_bool_iff. split; [intros H; split; [apply (H 0); done|split; [apply (H 1); done|done]]|]. intros (H0 & H1 & _) k Hk. cbn [both da_nc] in Hk. assert (k = 0 \/ k = 1) as [->| ->] by lia; done. }
  assert (Hall : forallb (fun i => forallb (fun j => forallb (fun k => implb (nb i j && nb j k) (nb i k)) (seqZ 0 7)) (seqZ 0 7)) (seqZ 0 7) = true) by (vm_compute; reflexivity).
  intros i j k Hi Hj Hk H1 H2. apply Hnb. apply Hnb in H1, H2. rewrite forallb_forall in Hall. specialize (Hall i ltac:(apply elem_of_list_In, elem_of_seqZ; lia)). cbv beta in Hall. rewrite forallb_forall in Hall. specialize (Hall j ltac:(apply elem_of_list_In, elem_of_seqZ; lia)). cbv beta in Hall. rewrite forallb_forall in Hall. specialize (Hall k ltac:(apply elem_of_list_In, elem_of_seqZ; lia)). cbv beta in Hall. rewrite H1, H2 in Hall. done.
Qed.

(** Meshes aggregated type by type. *)
Lemma aggregated_example : Forall2 (fun m cs => stores m cs /\ um_dim m = 2 /\ um_coords m = um_coords mixed) (omap id [Some sorted; None; Some mixed]) [sorted_cells; mixed_cells] /\ (forall t, t ∈ kinds (concat [sorted_cells; mixed_cells]) -> t ∈ MEDMEM_ORDER).
Proof.
  split; [constructor; [split; [exact sorted_stores|done]|constructor; [split; [exact mixed_stores|done]|constructor]]|]. intros t Ht. assert (H : forallb (fun t => bool_decide (t ∈ MEDMEM_ORDER)) (kinds (concat [sorted_cells; mixed_cells])) = true) by (vm_compute; reflexivity). rewrite forallb_forall in H. specialize (H t ltac:(by apply elem_of_list_In)). by apply bool_decide_eq_true in H.
Qed.
Lemma aggregated_value : exists m, AggregateSortedByTypeMeshesOnSameCoords [Some sorted; None; Some mixed] true = Ok (m, [3; 1; 2; 2; 1; 1], [0; 1; 1; 0; 1; 1]).
Proof. eexists. vm_compute. reflexivity. Qed.
Lemma one_cell_stores : stores (mk 2 3 [(NORM_TRI3, [0; 1; 2])]) [(NORM_TRI3, [0; 1; 2])].
Proof. apply mk_ok. lia. Qed.
Lemma ids_example : ~ forall ms m sz ids, AggregateSortedByTypeMeshesOnSameCoords ms true = Ok (m, sz, ids) -> forall k i, ids @ k = Some i -> exists x, ms @ i = Some (Some x).
Proof. intros H. destruct (H [None; Some (mk 2 3 [(NORM_TRI3, [0; 1; 2])])] (mk 2 3 [(NORM_TRI3, [0; 1; 2])]) [1] [0] ltac:(vm_compute; reflexivity) 0 0 eq_refl) as [x Hx]. done. Qed.
