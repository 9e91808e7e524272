(** Vocabulary of Gauss localizations. *)
From Coq Require Import QArith Qabs.
From Verif Require Import Base DataArray IndexSpec CellTable UmModel UmSpec GlModel.
Local Open Scope Z_scope.

(** The localization of cell [c], if it has one. *)
Definition loc_of (g : gauss) (c : Z) : option gloc :=
  match gd_dpc g with None => None | Some dpc => match dpc @ c with Some id => gd_loc g @ id | None => None end end.
(** A discretization for [n] cells: no id set yet, or for each cell the id of a localization or -1. *)
Definition good (n : Z) (g : gauss) : Prop :=
  match gd_dpc g with None => True | Some dpc => zlen dpc = n /\ forall id, id ∈ dpc -> id = -1 \/ 0 <= id < zlen (gd_loc g) end.
(** Each localization is that of some cell. *)
Definition all_used (g : gauss) : Prop := forall id, 0 <= id < zlen (gd_loc g) -> exists dpc, gd_dpc g = Some dpc /\ id ∈ dpc.
(** The reference nodes, the points and the weights suit the type of cell. *)
Definition fits (t : Z) (ref gs w : list Q) : Prop :=
  exists k, GetCellModel t = Ok k /\ (cm_dyn k = false -> zlen ref = cm_nbpts k * cm_dim k) /\ zlen gs = cm_dim k * zlen w.
(** The calls that change the localizations of a discretization. *)
Inductive call := OnType (t : Z) (ref gs w : list Q) | OnCells (ids : list Z) (ref gs w : list Q) | Clear.
Definition run (m : umesh) (k : call) (g : gauss) : res unit * gauss :=
  match k with
  | OnType t ref gs w => setGaussLocalizationOnType m t ref gs w g
  | OnCells ids ref gs w => setGaussLocalizationOnCells m ids ref gs w g
  | Clear => (Ok tt, clearGaussLocalizations g)
  end.
(** The call is correct for a mesh of dimension [dim] with these cells. *)
Definition correct (dim : Z) (cells : list cell) (k : call) : Prop :=
  match k with
  | OnType t ref gs w => fits t ref gs w /\ exists c, GetCellModel t = Ok c /\ cm_dim c = dim
  | OnCells ids ref gs w => ids <> [] /\ exists t, fits t ref gs w /\ forall i, i ∈ ids -> exists c : cell, cells @ i = Some c /\ c.1 = t
  | Clear => True
  end.
(** No negative id of cell is given. *)
Definition no_negative (k : call) : Prop := match k with OnCells ids _ _ _ => forall i, i ∈ ids -> 0 <= i | _ => True end.
(** The correct call [k] gives to the cell [i] the localization [l]. *)
Definition gives (dim : Z) (cells : list cell) (k : call) (i : Z) (l : gloc) : Prop :=
  correct dim cells k /\ exists c : cell, cells @ i = Some c /\
  match k with
  | OnType t ref gs w => c.1 = t /\ l = GL t ref gs w
  | OnCells ids ref gs w => i ∈ ids /\ l = GL c.1 ref gs w
  | Clear => False
  end.
(** The calls one after the other, whether they succeed or not. *)
Definition runs (m : umesh) (ks : list call) (g : gauss) : gauss := foldl (fun g k => snd (run m k g)) g ks.
(** Equality of localizations up to [eps]. *)
Definition near_loc (eps : Q) (a b : gloc) : Prop :=
  gl_type a = gl_type b /\ Forall2 (fun x y => (Qabs (x - y) < eps)%Q) (gl_ref a) (gl_ref b) /\
  Forall2 (fun x y => (Qabs (x - y) < eps)%Q) (gl_gauss a) (gl_gauss b) /\ Forall2 (fun x y => (Qabs (x - y) < eps)%Q) (gl_w a) (gl_w b).
(** No vector of the localization is empty. *)
Definition plain (l : gloc) : Prop := gl_ref l <> [] /\ gl_gauss l <> [] /\ gl_w l <> [].
(** The discretization gives a localization to each of its cells. *)
Definition complete (g : gauss) : Prop := exists dpc, gd_dpc g = Some dpc /\ forall id, id ∈ dpc -> 0 <= id < zlen (gd_loc g).
(** The number of its cells. *)
Definition ncells (g : gauss) : Z := match gd_dpc g with Some dpc => zlen dpc | None => 0 end.
