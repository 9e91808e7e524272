(** What a definition of the time is: independent of the functions of the model. *)
From Verif Require Import Base DtModel.
From Coq Require Import QArith Qabs.
Local Open Scope Z_scope.

(** The slice that the field number [i] gives, with its mesh [m] and its arrays. *)
Inductive gives (f : tfield) (m i : Z) : list Z -> slice -> Prop :=
| g_inst a : tf_kind f = 5 -> (tf_start f <= tf_end f)%Q -> (Qabs (tf_start f - tf_end f) <= tf_tol f)%Q ->
    gives f m i [a] (Inst m a i (tf_start f))
| g_cst a : tf_kind f = 7 -> (tf_start f <= tf_end f)%Q -> gives f m i [a] (CstTI m a i (tf_start f) (tf_end f))
| g_lin a b : tf_kind f = 6 -> (tf_start f <= tf_end f)%Q -> gives f m i [a; b] (LinT m a b i (tf_start f) (tf_end f)).

(** Each field gives the slice at its place. *)
Definition slicesOf (fs : list tfield) (ms : list Z) (ars : list (list Z)) (sl : list slice) : Prop :=
  zlen sl = zlen fs /\
  forall i f m a s, fs @ i = Some f -> ms @ i = Some m -> ars @ i = Some a -> sl @ i = Some s -> gives f m i a s.
(** A slice does not begin, and does not end, before the end of the one just before it, but for less than [eps]. *)
Definition ascending (eps : Q) (sl : list slice) : Prop :=
  forall i s s', sl @ i = Some s -> sl @ (i + 1) = Some s' ->
    (endTime s - eps < startTime s')%Q /\ (endTime s - eps < endTime s')%Q.
(** No slice ends before it starts. *)
Definition forward (sl : list slice) : Prop := forall i s, sl @ i = Some s -> (startTime s <= endTime s)%Q.

(** The time [tm] belongs to the slice, up to [eps]. *)
Definition holds (eps tm : Q) (s : slice) : Prop :=
  match s with
  | Inst _ _ _ t => (Qabs (tm - t) < eps)%Q
  | CstTI _ _ _ t0 t1 => (t0 - eps < tm)%Q /\ (tm < t1 + eps)%Q
  | LinT _ _ _ _ t0 t1 => (t0 - eps < tm)%Q /\ (tm < t1 + eps)%Q
  end.
(** The answer of a slice: mesh, array, place of the array in the field, field.  A linear slice answers at its two ends only, the start
    first. *)
Inductive answers (eps tm : Q) : slice -> ids -> Prop :=
| a_inst m a f t : answers eps tm (Inst m a f t) (m, a, 0, f)
| a_cst m a f t0 t1 : answers eps tm (CstTI m a f t0 t1) (m, a, 0, f)
| a_start m a b f t0 t1 : (Qabs (tm - t0) < eps)%Q -> answers eps tm (LinT m a b f t0 t1) (m, a, 0, f)
| a_end m a b f t0 t1 : (eps <= Qabs (tm - t0))%Q -> (Qabs (tm - t1) < eps)%Q -> answers eps tm (LinT m a b f t0 t1) (m, b, 1, f).
(** [c] are the slices of [sl] that hold [tm], in the order of [sl]. *)
Inductive holding (eps tm : Q) : list slice -> list slice -> Prop :=
| h_nil : holding eps tm [] []
| h_yes s sl c : holds eps tm s -> holding eps tm sl c -> holding eps tm (s :: sl) (s :: c)
| h_no s sl c : ~ holds eps tm s -> holding eps tm sl c -> holding eps tm (s :: sl) c.
(** Two slices that do not follow each other are [2 eps] apart. *)
Definition apart (eps : Q) (sl : list slice) : Prop :=
  forall i j s s', sl @ i = Some s -> sl @ j = Some s' -> i + 2 <= j -> (endTime s + eps + eps <= startTime s')%Q.

(** The remarkable times of a slice. *)
Inductive hot : slice -> Q -> Prop :=
| hot_inst m a f t : hot (Inst m a f t) t
| hot_cst m a f t0 t1 : hot (CstTI m a f t0 t1) ((t0 + t1) / 2)
| hot_start m a b f t0 t1 : hot (LinT m a b f t0 t1) t0
| hot_end m a b f t0 t1 : hot (LinT m a b f t0 t1) t1.
(** The linear slices last at least [2 eps]. *)
Definition lasting (eps : Q) (sl : list slice) : Prop :=
  forall i m a b f t0 t1, sl @ i = Some (LinT m a b f t0 t1) -> (t0 + eps + eps <= t1)%Q.

(** Same ids, same kind and the same times up to [eps]. *)
Inductive alike (eps : Q) : slice -> slice -> Prop :=
| k_inst m a f t t' : (Qabs (t' - t) < eps)%Q -> alike eps (Inst m a f t) (Inst m a f t')
| k_cst m a f t0 t1 u0 u1 : (Qabs (u0 - t0) <= eps)%Q -> (Qabs (u1 - t1) < eps)%Q -> alike eps (CstTI m a f t0 t1) (CstTI m a f u0 u1)
| k_lin m a b f t0 t1 u0 u1 : (Qabs (u0 - t0) <= eps)%Q -> (Qabs (u1 - t1) < eps)%Q ->
    alike eps (LinT m a b f t0 t1) (LinT m a b f u0 u1).
