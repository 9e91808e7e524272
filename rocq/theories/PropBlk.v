(** C45: distribution of the elements of a structured domain over processes; C46, part: serialization of such a distribution. *)
From Verif Require Import Base SearchSpec IndexSpec StdProofs StrModel StrSpec BlkModel BlkSpec BlkProofs2 BlkProofs3.

(** The three constructors give a distribution in which at most one axis is cut. *)
Theorem C45_grid g n lens : g <> [] -> 0 <= n -> Forall (Z.le 0) lens -> exists t a, fromGrid g (n :: lens) = Ok t /\ distributed t g /\ t_nb t = grid_nb (n :: lens) /\ t_idx t = a :: ((fun m => [0; m]) <$> lens) /\ axis_len a = n /\ blocks a = zlen g /\
  forall i lo hi, a @ i = Some lo -> a @ (i + 1) = Some hi -> hi - lo = n / zlen g + (if i <? n mod zlen g then 1 else 0).
Proof. exact (fromGrid_ok g n lens). Qed.
Print Assumptions C45_grid.
Example C45_grid_ex : fromGrid [4; 7; 8] [8; 2] = Ok (Topo [3; 1] [[0; 3; 6; 8]; [0; 2]] [0; 0] (Some [4; 7; 8]) 16).
Proof. vm_compute. done. Qed.
Theorem C45_counts g counts : g <> [] -> zlen counts = zlen g -> Forall (Z.le 0) counts -> exists t a, fromCounts g counts = Ok t /\ distributed t g /\ t_nb t = zsum counts /\ t_idx t = [a] /\
  forall i lo hi, a @ i = Some lo -> a @ (i + 1) = Some hi -> counts @ i = Some (hi - lo).
Proof. exact (fromCounts_ok g counts). Qed.
Print Assumptions C45_counts.
Example C45_counts_ex : fromCounts [0; 1; 2] [2; 0; 5] = Ok (Topo [3] [[0; 2; 2; 7]] [0] (Some [0; 1; 2]) 7).
Proof. vm_compute. done. Qed.
Theorem C45_compose t g c : distributed t g -> comp_ok c -> zlen g = 1 \/ blocks (c_arr c) = 1 -> axis_len (c_arr c) <> 1 ->
  exists t', compose t c = Ok t' /\ t_nb t' = t_nb t * axis_len (c_arr c) /\ t_idx t' = t_idx t ++ [c_arr c] /\
    (if 1 <? blocks (c_arr c) then forall g', c_group c = Some g' -> distributed t' g' else distributed t' g).
Proof. exact (compose_ok t g c). Qed.
Print Assumptions C45_compose.
Theorem C45_compose_one t g c : distributed t g -> comp_ok c -> axis_len (c_arr c) = 1 -> zlen g = 1 \/ blocks (c_arr c) = 1 -> compose t c = Ok t.
Proof. exact (compose_one t g c). Qed.
Print Assumptions C45_compose_one.
Theorem C45_compose_throws t g c : distributed t g -> 1 < zlen g -> 1 < blocks (c_arr c) -> compose t c = Throw.
Proof. exact (compose_throw t g c). Qed.
Print Assumptions C45_compose_throws.
Theorem C45_components n g : g <> [] -> zlen g <= n -> exists c, compOfGroup n g = Ok c /\ comp_ok c /\ axis_len (c_arr c) = n /\ blocks (c_arr c) = zlen g /\ c_group c = Some g.
Proof. exact (compOfGroup_ok n g). Qed.
Print Assumptions C45_components.
Example C45_compose_ex : exists geom c, fromGrid [0] [2; 3] = Ok geom /\ compOfGroup 3 [0; 1] = Ok c /\ compose geom c = Ok (Topo [1; 1; 2] [[0; 2]; [0; 3]; [0; 2; 3]] [0; 0; 0] (Some [0; 1]) 18) /\ distributed geom [0] /\ comp_ok c.
Proof.
  destruct (fromGrid_ok [0] 2 [3]) as (t & a & H1 & H2 & _); [done|lia|repeat constructor; lia|]. destruct (compOfGroup_ok 3 [0; 1]) as (c & H3 & H4 & _); [done|vm_compute; done|].
  vm_compute in H1. injection H1 as <-. vm_compute in H3. injection H3 as <-. eexists _, _. split; [vm_compute; done|]. split; [vm_compute; done|]. split; [vm_compute; done|]. done.
Qed.
(** The process and the local number of each element; both are unique, and no two elements share them. *)
Theorem C45_globalToLocal t g pos : distributed t g -> in_grid (axis_len <$> t_idx t) pos -> exists p l, globalToLocal t (row_id (axis_len <$> t_idx t) pos) = Ok (p, l) /\ holds (t_idx t) pos p l.
Proof. exact (globalToLocal_ok t g pos). Qed.
Print Assumptions C45_globalToLocal.
Theorem C45_one_process idx pos p l p' l' : Forall cuts idx -> holds idx pos p l -> holds idx pos p' l' -> p = p' /\ l = l'.
Proof. exact (holds_fun idx pos p l p' l'). Qed.
Print Assumptions C45_one_process.
Theorem C45_one_element idx pos pos' p l : holds idx pos p l -> holds idx pos' p l -> pos = pos'.
Proof. exact (holds_inj idx pos pos' p l). Qed.
Print Assumptions C45_one_element.
(** The number of elements of a process; their sum over the group. *)
Theorem C45_local_number t g p : distributed t g -> 0 <= p < zlen g -> exists bx, box_of (t_idx t) p bx /\ getNbLocalElements t p = Ok (grid_nb (box_dims bx)).
Proof. exact (getNbLocal_ok t g p). Qed.
Print Assumptions C45_local_number.
Theorem C45_sum t g ns : distributed t g -> zlen ns = zlen g -> (forall p n, ns @ p = Some n -> getNbLocalElements t p = Ok n) -> zsum ns = t_nb t.
Proof. exact (sum_local t g ns). Qed.
Print Assumptions C45_sum.
(** The two conversions are inverse of one another.  The process that runs localToGlobal must hold as many elements as the one given. *)
Theorem C45_round_trip t g x : distributed t g -> 0 <= x < t_nb t -> exists p l n, globalToLocal t x = Ok (p, l) /\ 0 <= p < zlen g /\ getNbLocalElements t p = Ok n /\ 0 <= l < n /\
  forall r, getNbLocalElements t r = Ok n -> localToGlobal t r (p, l) = Ok x.
Proof. exact (round_trip t g x). Qed.
Print Assumptions C45_round_trip.
Theorem C45_round_trip_local t g p l n : distributed t g -> 0 <= p < zlen g -> getNbLocalElements t p = Ok n -> 0 <= l < n -> exists x, localToGlobal t p (p, l) = Ok x /\ 0 <= x < t_nb t /\ globalToLocal t x = Ok (p, l).
Proof. exact (round_trip_local t g p l n). Qed.
Print Assumptions C45_round_trip_local.
(** The bounds of the local box, when the first axis is the one that is cut. *)
Theorem C45_bounds t g p a post : distributed t g -> t_idx t = a :: post -> Forall single post -> 0 <= p < zlen g -> exists bx, getLocalArrayMinMax t p = Ok bx /\ box_of (t_idx t) p bx.
Proof. exact (minMax_ok t g p a post). Qed.
Print Assumptions C45_bounds.
Example C45_ex : exists t, fromGrid [4; 7; 8] [8; 2] = Ok t /\ distributed t [4; 7; 8] /\ in_grid (axis_len <$> t_idx t) [4; 1] /\ globalToLocal t 9 = Ok (1, 3) /\ localToGlobal t 1 (1, 3) = Ok 9 /\ localToGlobal t 0 (1, 3) = Ok 9 /\
  [getNbLocalElements t 0; getNbLocalElements t 1; getNbLocalElements t 2] = [Ok 6; Ok 6; Ok 4] /\ getLocalArrayMinMax t 2 = Ok [(6, 8); (0, 2)] /\ Forall single [[0; 2]].
Proof.
  destruct (fromGrid_ok [4; 7; 8] 8 [2]) as (t & a & H1 & H2 & _); [done|lia|repeat constructor; lia|]. vm_compute in H1. injection H1 as <-. eexists. split; [vm_compute; done|]. split; [done|]. split; [repeat constructor; cbn; lia|]. repeat split; try (vm_compute; done). repeat constructor.
Qed.
(** Refuted: run by a process that holds another number of elements, localToGlobal is wrong. *)
Theorem C45_any_rank_refuted : exists g lens t x p l r y, fromGrid g lens = Ok t /\ 0 <= x < t_nb t /\ 0 <= r < zlen g /\ globalToLocal t x = Ok (p, l) /\ localToGlobal t r (p, l) = Ok y /\ y <> x.
Proof. exact other_rank_wrong. Qed.
Print Assumptions C45_any_rank_refuted.
(** A number out of the domain is not detected. *)
Theorem C45_outside_refuted : exists g lens t x, fromGrid g lens = Ok t /\ x = t_nb t /\ globalToLocal t x = UB.
Proof. exact outside_ub. Qed.
Print Assumptions C45_outside_refuted.
(** getLocalArrayMinMax goes out of bounds when the components are distributed. *)
Theorem C45_bounds_refuted : exists g lens geom n g' c t r, fromGrid g lens = Ok geom /\ compOfGroup n g' = Ok c /\ compose geom c = Ok t /\ distributed t g' /\ 0 <= r < zlen g' /\ getLocalArrayMinMax t r = UB.
Proof. exact minMax_ub. Qed.
Print Assumptions C45_bounds_refuted.
(** Components cut in blocks without a group give a topology without a group: every query dereferences a NULL pointer. *)
Theorem C45_no_group_refuted : exists g lens geom n b c t, fromGrid g lens = Ok geom /\ compOfBlocks n b = Ok c /\ compose geom c = Ok t /\ forall x r l, globalToLocal t x = UB /\ getNbLocalElements t r = UB /\ localToGlobal t r l = UB /\ serialize t = UB.
Proof. exact no_group_ub. Qed.
Print Assumptions C45_no_group_refuted.

(** Serialization keeps everything but the order of the processes of the group. *)
Theorem C46_block_topology t g : t_group t = Some g -> length (t_procs t) = length (t_idx t) -> length (t_cycle t) = length (t_idx t) ->
  exists buf, serialize t = Ok buf /\ unserialize buf = Ok (Topo (t_procs t) (t_idx t) (t_cycle t) (Some (StdModel.set_of g)) (t_nb t)).
Proof. exact (serialize_ok t g). Qed.
Print Assumptions C46_block_topology.
Theorem C46_block_topology_same t g : t_group t = Some g -> increasing g -> length (t_procs t) = length (t_idx t) -> length (t_cycle t) = length (t_idx t) ->
  exists buf, serialize t = Ok buf /\ unserialize buf = Ok t.
Proof. exact (serialize_same t g). Qed.
Print Assumptions C46_block_topology_same.
Example C46_block_topology_ex : serialize (Topo [2; 1] [[0; 2; 3]; [0; 4]] [0; 0] (Some [3; 5]) 12) = Ok [2; 12; 2; 0; 3; 0; 2; 3; 1; 0; 2; 0; 4; 2; 3; 5] /\
  unserialize [2; 12; 2; 0; 3; 0; 2; 3; 1; 0; 2; 0; 4; 2; 3; 5] = Ok (Topo [2; 1] [[0; 2; 3]; [0; 4]] [0; 0] (Some [3; 5]) 12) /\ increasing [3; 5].
Proof. split; [vm_compute; done|]. split; [vm_compute; done|]. apply increasing_SS. repeat constructor; lia. Qed.
(** Refuted: a group given by a vector in another order comes back in increasing order, so that the blocks change owners. *)
Theorem C46_block_order_refuted : exists t g buf t', fromGrid g [2] = Ok t /\ distributed t g /\ NoDup g /\ serialize t = Ok buf /\ unserialize buf = Ok t' /\ t_group t' <> t_group t /\ t_idx t' = t_idx t.
Proof. exact order_lost. Qed.
Print Assumptions C46_block_order_refuted.
