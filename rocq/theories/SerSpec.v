(** What the serialization of arrays and meshes must give back. *)
From stdpp Require Import strings.
From Verif Require Import Base SearchSpec SerModel.
Local Open Scope string_scope.
Local Open Scope Z_scope.
Local Open Scope list_scope.

(** An allocated array holds a whole number of tuples; an array that is not allocated has no component. *)
Definition arr_ok {V} (a : arr V) : Prop :=
  match a_mem a with Some l => exists n, 0 <= n /\ zlen l = n * zlen (a_info a) | None => a_info a = [] end.
(** An array of one component with no name. *)
Definition column {V} (a : arr V) : Prop := exists s l, a_info a = [s] /\ a_mem a = Some l.
(** The same values without any string. *)
Definition blank {V} (a : arr V) : arr V := Arr "" [""] (a_mem a).
(** The same values and component name, without the name. *)
Definition unnamed {V} (a : arr V) : arr V := Arr "" (a_info a) (a_mem a).

Definition sgt_ok {D} (m : sgt D) : Prop := exists c n, s_coords m = Some c /\ s_conn m = Some n /\ arr_ok c /\ arr_ok n.
Definition dgt_ok {D} (m : dgt D) : Prop :=
  exists c n i, d_coords m = Some c /\ d_conn m = Some n /\ d_index m = Some i /\ arr_ok c /\ arr_ok n /\ arr_ok i.
Definition clm_ok {D} (m : clm D) : Prop := match l_coords m with Some c => arr_ok c | None => True end.
(** setCoordsAt only accepts arrays of one component. *)
Definition cmesh_ok {D} (m : cmesh D) : Prop :=
  length (c_axes m) = 3%nat /\ forall a, Some a ∈ c_axes m -> column a.
(** The names of the axes are not transmitted. *)
Definition cmesh_rebuilt {D} (m : cmesh D) : cmesh D := CMesh (c_head m) (map (option_map unnamed) (c_axes m)).

(** [types]: the increasing list of the first entries of the cells. *)
Definition types_of (conn index : arr Z) (types : list Z) : Prop :=
  increasing types /\
  (forall i, 0 <= i < zlen (vals index) - 1 -> exists p t, vals index @ i = Some (Some p) /\ vals conn @ p = Some (Some t)) /\
  (forall t, t ∈ types <-> exists i p, 0 <= i < zlen (vals index) - 1 /\ vals index @ i = Some (Some p) /\ vals conn @ p = Some (Some t)).
(** Either the dimension is -1 and there is no connectivity, or there are both arrays of the connectivity. *)
Definition umesh_ok {D} (m : umesh D) : Prop :=
  -1 <= u_dim m <= 3 /\
  match u_coords m with Some c => arr_ok c /\ isAlloc c = true /\ a_info c <> [] | None => True end /\
  match u_conn m, u_index m with
  | Some c, Some i => 0 <= u_dim m /\ column c /\ column i /\ types_of c i (u_types m)
  | None, None => u_dim m = -1 /\ u_types m = []
  | _, _ => False
  end.
(** The names of the arrays of the connectivity are not transmitted. *)
Definition umesh_rebuilt {D} (m : umesh D) : umesh D :=
  UMesh (u_head m) (u_dim m) (u_types m) (u_coords m) (blank <$> u_conn m) (blank <$> u_index m).
(** An extruded mesh keeps its name and its description only; the times of its two meshes are set to zero. *)
Definition untimed {D} (zero : D) (m : umesh D) : umesh D :=
  let h := u_head m in UMesh (Head (h_name h) (h_desc h) (h_unit h) zero (h_it h) (h_ord h)) (u_dim m) (u_types m) (u_coords m) (u_conn m) (u_index m).
Definition emesh_ok {D} (m : emesh D) : Prop :=
  umesh_ok (e_2D m) /\ umesh_ok (e_1D m) /\ 0 <= u_dim (e_2D m) /\ 0 <= u_dim (e_1D m) /\
  u_coords (e_2D m) <> None /\ u_coords (e_1D m) <> None /\ column (e_ids m).
Definition emesh_rebuilt {D} (zero : D) (m : emesh D) : emesh D :=
  EMesh (Head (h_name (e_head m)) (h_desc (e_head m)) "" zero (-1) (-1))
    (untimed zero (umesh_rebuilt (e_2D m))) (untimed zero (umesh_rebuilt (e_1D m))) (blank (e_ids m)) (e_cell m).
