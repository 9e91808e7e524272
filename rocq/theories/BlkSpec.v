(** Elements of a structured domain, cut along its axes and distributed over processes. *)
From Verif Require Import Base SearchSpec StrModel StrSpec BlkModel.

(** The number of the element at a position: the last axis runs fastest. *)
Fixpoint row_id (dims pos : list Z) : Z :=
  match dims, pos with _ :: dims, p :: pos => p * grid_nb dims + row_id dims pos | _, _ => 0 end.
(** An axis is given by the positions of its cuts, from 0 to its length. *)
Definition cuts (a : list Z) : Prop := 2 <= zlen a /\ a @ 0 = Some 0 /\ nondecreasing a.
Definition axis_len (a : list Z) : Z := default 0 (a @ (zlen a - 1)).
Definition blocks (a : list Z) : Z := zlen a - 1.
Definition single (a : list Z) : Prop := blocks a = 1.
(** At most one axis is cut. *)
Definition one_split (idx : list (list Z)) : Prop := exists pre a post, idx = pre ++ a :: post /\ Forall single pre /\ Forall single post.
(** The box of the blocks number [bs] along the axes. *)
Definition block_box (idx : list (list Z)) (bs : list Z) (bx : box) : Prop := Forall3 (fun a b r => a @ b = Some (fst r) /\ a @ (b + 1) = Some (snd r)) idx bs bx.
(** Process [p] holds the box [bx]: the processes are numbered as the blocks, the last axis running fastest. *)
Definition box_of (idx : list (list Z)) (p : Z) (bx : box) : Prop := exists bs, block_box idx bs bx /\ p = row_id (blocks <$> idx) bs.
(** Process [p] holds the element at position [pos]; [l] is its number in the box of [p]. *)
Definition holds (idx : list (list Z)) (pos : list Z) (p l : Z) : Prop := exists bx, box_of idx p bx /\ in_box bx pos /\ l = row_id (box_dims bx) (zip_with (fun x r => x - fst r) pos bx).
(** A distribution over the group [g]. *)
Record distributed (t : topo) (g : list Z) : Prop := Distributed {
  d_group : t_group t = Some g;
  d_cuts : Forall cuts (t_idx t);
  d_split : one_split (t_idx t);
  d_procs : t_procs t = blocks <$> t_idx t;
  d_size : zlen g = grid_nb (blocks <$> t_idx t);
  d_cycle : t_cycle t = (fun _ => 0) <$> t_idx t;
  d_nb : t_nb t = grid_nb (axis_len <$> t_idx t) }.
(** A distribution of components: one block per process, if a group is given. *)
Definition comp_ok (c : comp) : Prop := cuts (c_arr c) /\ forall g, c_group c = Some g -> zlen g = blocks (c_arr c).
