(** C46: serialization of arrays and part definitions; C55: serialization of meshes.
    [transmit] is the path of two processes (tiny information, arrays sized by the receiver, arrays received, unserialization),
    [pickle] the one of the Python module (the arrays themselves are given to unserialization). *)
From stdpp Require Import strings.
From Verif Require Import Base SearchSpec StdProofs DataArray PartDefModel PartDefSpec PartDefProofs SerModel SerSpec SerProofs SerProofs2.
Local Open Scope string_scope.
Local Open Scope Z_scope.
Local Open Scope list_scope.

Theorem C46_array_int {V} (a : arr V) : arr_ok a -> transmitInt a = Ok a.
Proof. exact (transmitInt_ok a). Qed.
Print Assumptions C46_array_int.
Theorem C46_array_double {V} (a : arr V) : arr_ok a -> transmitDbl a = Ok a.
Proof. exact (transmitDbl_ok a). Qed.
Print Assumptions C46_array_double.
Example C46_array_ex : arr_ok xyz /\ transmitInt xyz = Ok xyz /\ transmitDbl xyz = Ok xyz /\ arr_ok (Arr "n" [] (@None (list (option Z)))).
Proof. split; [by exists 3|]. split; [vm_compute; reflexivity|]. split; [vm_compute; reflexivity|done]. Qed.
(** An array that is not allocated is only rebuilt by a receiver that is not allocated either: otherwise the old values survive, or memory is read out of bounds. *)
Theorem C46_receiver_int_refuted {V} (a b : arr V) : a_mem a = None -> transmitIntTo a b = Ok (Arr (a_name a) (a_info b) (a_mem b)).
Proof. exact (kept_int a b). Qed.
Print Assumptions C46_receiver_int_refuted.
Theorem C46_receiver_double_refuted {V} (a b : arr V) : a_mem a = None -> isAlloc b = true -> a_info b <> [] -> transmitDblTo a b = UB.
Proof. exact (kept_dbl a b). Qed.
Print Assumptions C46_receiver_double_refuted.
Example C46_receiver_ex : transmitIntTo (Arr "n" [] None) xyz = Ok (Arr "n" ["X [m]"; "Y [m]"] (a_mem xyz)) /\ transmitDblTo (Arr "n" [] None) xyz = UB.
Proof. split; vm_compute; reflexivity. Qed.
Theorem C46_part_definition p l : denotes p l -> (let '(t, b) := serialize p [] [] in Unserialize t b) = Ok (p, [], []).
Proof. exact (serial_ok p l). Qed.
Print Assumptions C46_part_definition.
Example C46_part_definition_ex : denotes (PList (vec [4; 1; 1])) [4; 1; 1] /\ (let '(t, b) := serialize (PList (vec [4; 1; 1])) [] [] in Unserialize t b) = Ok (PList (vec [4; 1; 1]), [], []).
Proof. split; [done|vm_compute; reflexivity]. Qed.

(** ** C55. *)
Theorem C55_single_type {D} (m : sgt D) : sgt_ok m -> sgt_pickle m = Ok m /\ sgt_transmit m = Ok m.
Proof. intros H. exact (conj (sgt_pickle_ok m H) (sgt_transmit_ok m H)). Qed.
Print Assumptions C55_single_type.
Theorem C55_single_type_index {D} (m : dgt D) : dgt_ok m -> dgt_pickle m = Ok m.
Proof. exact (dgt_pickle_ok m). Qed.
Print Assumptions C55_single_type_index.
Theorem C55_single_type_index_sent {D} (m : dgt D) : dgt_ok m -> (forall n i, d_conn m = Some n -> d_index m = Some i -> nComp n = nComp i) -> dgt_transmit m = Ok m.
Proof. exact (dgt_transmit_ok m). Qed.
Print Assumptions C55_single_type_index_sent.
Theorem C55_curvilinear {D} (m : clm D) : clm_ok m -> clm_pickle m = Ok m.
Proof. exact (clm_pickle_ok m). Qed.
Print Assumptions C55_curvilinear.
Theorem C55_curvilinear_sent {D} (m : clm D) : clm_ok m -> l_coords m <> None -> clm_transmit m = Ok m.
Proof. exact (clm_transmit_ok m). Qed.
Print Assumptions C55_curvilinear_sent.
Theorem C55_image {D} (m : imesh D) : imesh_pickle m = Ok m /\ imesh_transmit m = Ok m.
Proof. exact (imesh_ok m). Qed.
Print Assumptions C55_image.
Theorem C55_cartesian {D} (m : cmesh D) : cmesh_ok m -> cmesh_pickle m = Ok (cmesh_rebuilt m) /\ cmesh_transmit m = Ok (cmesh_rebuilt m).
Proof. intros H. exact (conj (cmesh_pickle_ok m H) (cmesh_transmit_ok m H)). Qed.
Print Assumptions C55_cartesian.
Theorem C55_cartesian_same {D} (m : cmesh D) : cmesh_rebuilt m = m <-> forall a, Some a ∈ c_axes m -> a_name a = "".
Proof. exact (cmesh_same m). Qed.
Print Assumptions C55_cartesian_same.
Theorem C55_unstructured {D} (m : umesh D) : umesh_ok m -> umesh_pickle m = Ok (umesh_rebuilt m) /\ umesh_transmit m = Ok (umesh_rebuilt m).
Proof. intros H. exact (conj (umesh_pickle_ok m H) (umesh_transmit_ok m H)). Qed.
Print Assumptions C55_unstructured.
Theorem C55_unstructured_same {D} (m : umesh D) : umesh_ok m -> umesh_rebuilt m = m <->
  (forall c, u_conn m = Some c \/ u_index m = Some c -> a_name c = "" /\ a_info c = [""]).
Proof. exact (umesh_same m). Qed.
Print Assumptions C55_unstructured_same.
Theorem C55_extruded {D} (zero : D) (m : emesh D) : emesh_ok m -> emesh_pickle zero m = Ok (emesh_rebuilt zero m) /\ emesh_transmit zero m = Ok (emesh_rebuilt zero m).
Proof. intros H. exact (conj (emesh_pickle_ok zero m H) (emesh_transmit_ok zero m H)). Qed.
Print Assumptions C55_extruded.

Example C55_1GT_ex : sgt_ok (Sgt hd0 1 (Some xyz) (Some seg)) /\ dgt_ok (Dgt hd0 5 (Some xyz) (Some seg) (Some segI)) /\ dgt_transmit (Dgt hd0 5 (Some xyz) (Some seg) (Some segI)) = Ok (Dgt hd0 5 (Some xyz) (Some seg) (Some segI)).
Proof.
  split; [exists xyz, seg; split_and!; try done; [by exists 3|by exists 4]|]. split; [|vm_compute; reflexivity].
  exists xyz, seg, segI. split_and!; try done; [by exists 3|by exists 4|by exists 3].
Qed.
Example C55_structured_ex : clm_ok (Clm hd0 [1; 3] (Some xyz)) /\ clm_transmit (Clm hd0 [1; 3] (Some xyz)) = Ok (Clm hd0 [1; 3] (Some xyz)) /\
  cmesh_ok cm /\ cmesh_transmit cm = Ok (CMesh hd0 [Some (Arr "" ["X"] (Some [Some 1; Some 2])); Some (Arr "" ["Y"] (Some [Some 4])); None]).
Proof. split; [by exists 3|]. split; [vm_compute; reflexivity|]. split; [exact cm_ok|vm_compute; reflexivity]. Qed.
Example C55_unstructured_ex : umesh_ok um /\ umesh_transmit um = Ok um /\ umesh_pickle um = Ok um.
Proof. split; [exact um_ok|]. split; vm_compute; reflexivity. Qed.
Example C55_extruded_ex : emesh_ok (EMesh hd0 um um segI 2) /\ emesh_transmit 0 (EMesh hd0 um um segI 2) = Ok (emesh_rebuilt 0 (EMesh hd0 um um segI 2)).
Proof. split; [exact um_ext|vm_compute; reflexivity]. Qed.

(** ** What is lost. *)
Theorem C55_no_coords_refuted {D} (m : sgt D) (n : dgt D) (l : clm D) : s_coords m = None -> d_coords n = None -> l_coords l = None ->
  sgt_pickle m = UB /\ dgt_pickle n = UB /\ clm_transmit l = UB.
Proof. intros H1 H2 H3. exact (conj (sgt_no_coords m H1) (conj (dgt_no_coords n H2) (proj1 (clm_no_coords l H3)))). Qed.
Print Assumptions C55_no_coords_refuted.
Theorem C55_components_refuted {D} (m : dgt D) n i : dgt_ok m -> d_conn m = Some n -> d_index m = Some i -> nComp n <> nComp i -> dgt_transmit m = Throw.
Proof. exact (dgt_mixed m n i). Qed.
Print Assumptions C55_components_refuted.
Theorem C55_axis_name_refuted : exists m m' : cmesh Z, cmesh_ok m /\ cmesh_transmit m = Ok m' /\ m' <> m.
Proof. exact axis_lost. Qed.
Print Assumptions C55_axis_name_refuted.
Theorem C55_connectivity_name_refuted : exists m m' : umesh Z, umesh_ok m /\ umesh_transmit m = Ok m' /\ m' <> m.
Proof. exact name_lost. Qed.
Print Assumptions C55_connectivity_name_refuted.
(** Coordinates without component: the strings are shifted and the coordinates dropped. *)
Theorem C55_flat_coords_refuted : exists m m' : umesh Z, u_coords m = Some (Arr "n" [] (Some [])) /\ h_unit (u_head m) = "s" /\
  umesh_transmit m = Ok m' /\ u_coords m' = None /\ h_unit (u_head m') = "n".
Proof. exact shifted. Qed.
Print Assumptions C55_flat_coords_refuted.
Theorem C55_extruded_time_refuted : exists m m' : emesh Z, emesh_ok m /\ emesh_transmit 0 m = Ok m' /\
  h_time (e_head m) = 7 /\ h_time (e_head m') = 0 /\ h_it (e_head m) = 3 /\ h_it (e_head m') = -1 /\ h_unit (e_head m) = "s" /\ h_unit (e_head m') = "" /\ h_time (u_head (e_2D m)) = 7 /\ h_time (u_head (e_2D m')) = 0.
Proof. exact time_lost. Qed.
Print Assumptions C55_extruded_time_refuted.
