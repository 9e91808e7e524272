(** C01, C02, C03. *)
From Verif Require Import Base DataArray SlicesModel SlicesSpec SlicesProofs.

(** C01: the relative count is the number of elements of the range, and it throws exactly on meaningless triples. *)
Theorem C01_count_relative : forall b e s l,
  valid_range b e s -> is_range_list b e s l -> GetNumberOfItemGivenBESRelative b e s = Ok (zlen l).
Proof. exact count_is_len. Qed.
Print Assumptions C01_count_relative.

Theorem C01_count_relative_throw : forall b e s,
  GetNumberOfItemGivenBESRelative b e s = Throw <-> ~ valid_range b e s.
Proof. exact count_throw. Qed.
Print Assumptions C01_count_relative_throw.

Theorem C01_count : forall b e s l,
  (b = e \/ (b < e /\ 0 < s)) -> is_range_list b e s l -> GetNumberOfItemGivenBES b e s = Ok (zlen l).
Proof. exact bes_len. Qed.
Print Assumptions C01_count.

Theorem C01_count_throw : forall b e s,
  GetNumberOfItemGivenBES b e s = Throw <-> e < b \/ (b < e /\ s <= 0).
Proof. exact bes_throw. Qed.
Print Assumptions C01_count_throw.

(** C01: Range returns a fully initialised array listing the range. *)
Theorem C01_range : forall b e s, valid_range b e s ->
  exists l, Range b e s = Ok (Some <$> l) /\ is_range_list b e s l.
Proof. exact range_ok. Qed.
Print Assumptions C01_range.

Theorem C01_range_throw : forall b e s, Range b e s = Throw <-> ~ valid_range b e s.
Proof. exact range_throw. Qed.
Print Assumptions C01_range_throw.

(** C01: position of a value in the range, -1 when absent. *)
Theorem C01_pos : forall v b e s l, is_range_list b e s l ->
  let p := GetPosOfItemGivenBESRelativeNoThrow v b e s in
  (l @ p = Some v) \/ (p = -1 /\ v ∉ l).
Proof. exact pos_correct. Qed.
Print Assumptions C01_pos.

Example C01_ex : valid_range 10 3 (-3) /\ Range 10 3 (-3) = Ok (Some <$> [10; 7; 4]) /\
  GetNumberOfItemGivenBESRelative 10 3 (-3) = Ok 3 /\ GetPosOfItemGivenBESRelativeNoThrow 4 10 3 (-3) = 2 /\
  GetPosOfItemGivenBESRelativeNoThrow 5 10 3 (-3) = -1.
Proof. split; [unfold valid_range; lia|]. vm_compute. done. Qed.
Example C01_ex_list : is_range_list 10 3 (-3) [10; 7; 4].
Proof.
  destruct (C01_range 10 3 (-3)) as (l & HR & Hl); [unfold valid_range; lia|].
  change (Range 10 3 (-3)) with (Ok (Some <$> [10; 7; 4])) in HR. injection HR as HR. apply (Some_fmap_inj [10; 7; 4] l) in HR. subst l. done.
Qed.

(** C02: the slices, in order, rebuild the range. *)
Theorem C02_slices_partition : forall start stop step n, valid_range start stop step -> 0 < n ->
  exists ls : list (list Z), zlen ls = n /\
    (forall i, 0 <= i < n -> exists a c li,
        ls @ i = Some li /\ GetSlice start stop step i n = Ok (a, c) /\ Range a c step = Ok (Some <$> li)) /\
    Range start stop step = Ok (Some <$> concat ls).
Proof. exact slice_partition. Qed.
Print Assumptions C02_slices_partition.

Theorem C02_slice_throw : forall start stop step i n,
  GetSlice start stop step i n = Throw <-> n <= 0 \/ ~ 0 <= i < n \/ ~ valid_range start stop step.
Proof. exact slice_throw. Qed.
Print Assumptions C02_slice_throw.

Example C02_ex : valid_range 0 11 2 /\ GetSlice 0 11 2 0 4 = Ok (0, 2) /\ GetSlice 0 11 2 3 4 = Ok (6, 11).
Proof. split; [unfold valid_range; lia|]. vm_compute. done. Qed.

(** C03: isRange recognises exactly the arrays produced by Range and returns parameters that rebuild them. *)
Theorem C03_isRange : forall l,
  (exists a b c, isRange (vec l) = Ok (Some (a, b, c)) /\ Range a b c = Ok (Some <$> l)) \/
  (isRange (vec l) = Ok None /\ forall a b c, Range a b c <> Ok (Some <$> l)).
Proof. exact isRange_correct. Qed.
Print Assumptions C03_isRange.

Theorem C03_isRange_throw : forall d, isRange d = Throw <-> da_alloc d = false \/ da_nc d <> 1.
Proof. exact isRange_shape. Qed.
Print Assumptions C03_isRange_throw.

Example C03_ex : isRange (vec [7; 4; 1]) = Ok (Some (7, 0, -3)) /\ isRange (vec [7; 4; 0]) = Ok None.
Proof. vm_compute. done. Qed.
