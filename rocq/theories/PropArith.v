(** C50: arithmetic in place (addEqual, substractEqual, multiplyEqual, divideEqual, modulusEqual, powEqual); C56: arithmetic giving a new array, and the functions applied to every value.
    [in_place good f d src o] (ArithSpec): success exactly when [good], entry (i,j) becoming [f] of itself and of [src i j]; an exception and no change otherwise.
    The general theorems hold for values of any type and any operation that is defined on the operands; the others are those of integers. *)
From Verif Require Import Base DataArray SetModel ArithModel ArithSpec ArithProofs ArithProofs2 ArithProofs3.

Theorem C50_general {A} (f : A -> A -> res A) (d a : da A) : da_wf d -> da_wf a -> defined_on f d (operand d a) ->
  in_place (da_alloc d = true /\ da_alloc a = true /\ shapes_fit d a) f d (operand d a) (somethingEqual f d (Other a)).
Proof. exact (something_ok f d a). Qed.
Print Assumptions C50_general.
Theorem C50_add (d a : da Z) : da_wf d -> da_wf a -> in_place (da_alloc d = true /\ da_alloc a = true /\ shapes_fit d a) (fun x y => Ok (x + y)) d (operand d a) (addEqual d (Other a)).
Proof. exact (add_ok d a). Qed.
Print Assumptions C50_add.
Theorem C50_substract (d a : da Z) : da_wf d -> da_wf a -> in_place (da_alloc d = true /\ da_alloc a = true /\ shapes_fit d a) (fun x y => Ok (x - y)) d (operand d a) (substractEqual d (Other a)).
Proof. exact (substract_ok d a). Qed.
Print Assumptions C50_substract.
Theorem C50_multiply (d a : da Z) : da_wf d -> da_wf a -> in_place (da_alloc d = true /\ da_alloc a = true /\ shapes_fit d a) (fun x y => Ok (x * y)) d (operand d a) (multiplyEqual d (Other a)).
Proof. exact (multiply_ok d a). Qed.
Print Assumptions C50_multiply.
Theorem C50_divide (d a : da Z) : da_wf d -> da_wf a -> no_zero a -> in_place (da_alloc d = true /\ da_alloc a = true /\ shapes_fit d a) (fun x y => Ok (Z.quot x y)) d (operand d a) (divideEqual d (Other a)).
Proof. exact (divide_ok d a). Qed.
Print Assumptions C50_divide.
Example C50_ex : let d := DA true 2 [10; 20; 30; 40] in
  addEqual d (Other (DA true 2 [1; 2; 3; 4])) = (Ok tt, DA true 2 [11; 22; 33; 44]) /\ substractEqual d (Other (DA true 1 [1; 2])) = (Ok tt, DA true 2 [9; 19; 28; 38]) /\
  multiplyEqual d (Other (DA true 2 [5; -1])) = (Ok tt, DA true 2 [50; -20; 150; -40]) /\ divideEqual d (Other (DA true 2 [-3; 7])) = (Ok tt, DA true 2 [-3; 2; -10; 5]) /\
  addEqual d (Other (DA true 1 [1; 2; 3])) = (Throw, d) /\ divideEqual d (Other (DA true 2 [0; 7])) = (UB, d) /\ powEqual (DA true 1 [2; 3; 5]) (Other (DA true 1 [3; 0; 2])) = (Ok tt, DA true 1 [8; 1; 25]) /\
  powEqual (DA true 1 [2; 3; 5]) (Other (DA true 1 [3; -1; 2])) = (Throw, DA true 1 [8; 3; 5]).
Proof. vm_compute. done. Qed.
(** Missing for modulusEqual: the documented case of one component, that always throws, and one tuple of another width, that is not rejected. *)
Theorem C50_modulus_partial (d a : da Z) : da_wf d -> da_wf a -> no_zero a -> (da_nc a = da_nc d \/ da_nt a <> 1 \/ da_nt d = 1) ->
  in_place (da_alloc d = true /\ da_alloc a = true /\ shapes_fit d a /\ da_nc a = da_nc d) (fun x y => Ok (Z.rem x y)) d (operand d a) (modulusEqual d (Other a)).
Proof. exact (modulus_partial d a). Qed.
Print Assumptions C50_modulus_partial.
Theorem C50_modulus_component_refuted : ~ forall d a : da Z, da_wf d -> da_wf a -> da_alloc d = true -> da_alloc a = true -> shapes_fit d a -> fst (modulusEqual d (Other a)) <> Throw.
Proof. exact modulus_component_refuted. Qed.
Print Assumptions C50_modulus_component_refuted.
Theorem C50_modulus_safe_refuted : ~ forall d a : da Z, da_wf d -> da_wf a -> (forall x, x ∈ da_vals a -> x <> 0) -> fst (modulusEqual d (Other a)) <> UB.
Proof. exact modulus_safe_refuted. Qed.
Print Assumptions C50_modulus_safe_refuted.
Theorem C50_modulus_shape_refuted : ~ forall d a : da Z, da_wf d -> da_wf a -> ~ shapes_fit d a -> fst (modulusEqual d (Other a)) = Throw.
Proof. exact modulus_shape_refuted. Qed.
Print Assumptions C50_modulus_shape_refuted.
Example C50_modulus_ex : modulusEqual (DA true 2 [7; -8; 9; 10]) (Other (DA true 2 [4; 3])) = (Ok tt, DA true 2 [3; -2; 1; 1]) /\ no_zero (DA true 2 [4; 3]) /\
  modulusEqual (DA true 2 [7; -8; 9; 10]) (Other (DA true 1 [4; 3])) = (Throw, DA true 2 [7; -8; 9; 10]).
Proof. split; [vm_compute; done|]. split; [|vm_compute; done]. intros y Hy. apply elem_of_list_In in Hy. cbn in Hy. lia. Qed.
Theorem C50_pow (d a : da Z) : da_wf d -> da_wf a ->
  maps_all (da_nt a = da_nt d /\ da_nc d = 1 /\ da_nc a = 1) (fun k _ => exists e, da_vals a @ k = Some e /\ 0 <= e) (fun k x => x ^ default 0 (da_vals a @ k)) d (powEqual d (Other a)).
Proof. exact (powEqual_ok d a). Qed.
Print Assumptions C50_pow.
(** The array itself as operand. *)
Theorem C50_itself (d : da Z) : da_wf d ->
  in_place (da_alloc d = true) (fun x y => Ok (x + y)) d (ij d) (addEqual d Self) /\ in_place (da_alloc d = true) (fun x y => Ok (x - y)) d (ij d) (substractEqual d Self) /\ in_place (da_alloc d = true) (fun x y => Ok (x * y)) d (ij d) (multiplyEqual d Self) /\
  (no_zero d -> in_place (da_alloc d = true) (fun x y => Ok (Z.quot x y)) d (ij d) (divideEqual d Self) /\ in_place (da_alloc d = true) (fun x y => Ok (Z.rem x y)) d (ij d) (modulusEqual d Self)).
Proof. exact (itself_ok d). Qed.
Print Assumptions C50_itself.
Theorem C50_pow_itself (d : da Z) : da_wf d -> maps_all (da_nc d = 1) (fun _ x => 0 <= x) (fun _ x => x ^ x) d (powEqual d Self).
Proof. exact (powEqual_self d). Qed.
Print Assumptions C50_pow_itself.
Theorem C50_null (d : da Z) : addEqual d Null = (Throw, d) /\ substractEqual d Null = (Throw, d) /\ multiplyEqual d Null = (Throw, d) /\ divideEqual d Null = (Throw, d) /\ modulusEqual d Null = (Throw, d) /\ powEqual d Null = (Throw, d).
Proof. exact (arith_null d None). Qed.
Print Assumptions C50_null.
Example C50_itself_ex : addEqual (DA true 2 [1; 2]) Self = (Ok tt, DA true 2 [2; 4]) /\ powEqual (DA true 1 [2; 3]) Self = (Ok tt, DA true 1 [4; 27]).
Proof. vm_compute. done. Qed.

Theorem C56_general {A} (f : A -> A -> res A) (a1 a2 : da A) : da_wf a1 -> da_wf a2 -> defined2 f a1 a2 (da_nt a1) (da_nc a1) ->
  (shapes_fit a1 a2 -> builds (da_nt a1) (da_nc a1) (combined_at f a1 a2 (da_nt a1) (da_nc a1)) (divSub f (Some a1) (Some a2))) /\ (~ shapes_fit a1 a2 -> divSub f (Some a1) (Some a2) = Throw).
Proof. exact (divSub_ok f a1 a2). Qed.
Print Assumptions C56_general.
Theorem C56_general_symmetric {A} (f : A -> A -> res A) (a1 a2 : da A) : (forall x y, f x y = f y x) -> da_wf a1 -> da_wf a2 -> let nt := Z.max (da_nt a1) (da_nt a2) in let nc := Z.max (da_nc a1) (da_nc a2) in
  defined2 f a1 a2 nt nc ->
  (shapes_fit2 a1 a2 -> builds nt nc (combined_at f a1 a2 nt nc) (mulAdd f (Some a1) (Some a2))) /\ (~ shapes_fit2 a1 a2 -> mulAdd f (Some a1) (Some a2) = Throw).
Proof. exact (mulAdd_ok f a1 a2). Qed.
Print Assumptions C56_general_symmetric.
Theorem C56_Substract (a1 a2 : da Z) : da_wf a1 -> da_wf a2 -> 
  (shapes_fit a1 a2 -> builds (da_nt a1) (da_nc a1) (combined_at (fun x y => Ok (x - y)) a1 a2 (da_nt a1) (da_nc a1)) (Substract (Some a1) (Some a2))) /\ (~ shapes_fit a1 a2 -> Substract (Some a1) (Some a2) = Throw).
Proof. exact (Substract_ok a1 a2). Qed.
Print Assumptions C56_Substract.
Theorem C56_Divide (a1 a2 : da Z) : da_wf a1 -> da_wf a2 -> no_zero a2 -> 
  (shapes_fit a1 a2 -> builds (da_nt a1) (da_nc a1) (combined_at (fun x y => Ok (Z.quot x y)) a1 a2 (da_nt a1) (da_nc a1)) (Divide (Some a1) (Some a2))) /\ (~ shapes_fit a1 a2 -> Divide (Some a1) (Some a2) = Throw).
Proof. exact (Divide_ok a1 a2). Qed.
Print Assumptions C56_Divide.
Theorem C56_Modulus (a1 a2 : da Z) : da_wf a1 -> da_wf a2 -> no_zero a2 -> 
  (shapes_fit a1 a2 -> builds (da_nt a1) (da_nc a1) (combined_at (fun x y => Ok (Z.rem x y)) a1 a2 (da_nt a1) (da_nc a1)) (Modulus (Some a1) (Some a2))) /\ (~ shapes_fit a1 a2 -> Modulus (Some a1) (Some a2) = Throw).
Proof. exact (Modulus_ok a1 a2). Qed.
Print Assumptions C56_Modulus.
Theorem C56_Add (a1 a2 : da Z) : da_wf a1 -> da_wf a2 -> let nt := Z.max (da_nt a1) (da_nt a2) in let nc := Z.max (da_nc a1) (da_nc a2) in
  (shapes_fit2 a1 a2 -> builds nt nc (combined_at (fun x y => Ok (x + y)) a1 a2 nt nc) (Add (Some a1) (Some a2))) /\ (~ shapes_fit2 a1 a2 -> Add (Some a1) (Some a2) = Throw).
Proof. exact (Add_ok a1 a2). Qed.
Print Assumptions C56_Add.
Theorem C56_Multiply (a1 a2 : da Z) : da_wf a1 -> da_wf a2 -> let nt := Z.max (da_nt a1) (da_nt a2) in let nc := Z.max (da_nc a1) (da_nc a2) in
  (shapes_fit2 a1 a2 -> builds nt nc (combined_at (fun x y => Ok (x * y)) a1 a2 nt nc) (Multiply (Some a1) (Some a2))) /\ (~ shapes_fit2 a1 a2 -> Multiply (Some a1) (Some a2) = Throw).
Proof. exact (Multiply_ok a1 a2). Qed.
Print Assumptions C56_Multiply.
Example C56_ex : let d := DA true 2 [10; 20; 30; 40] in
  Add (Some (DA true 1 [1; 2])) (Some d) = Ok (DA true 2 (Some <$> [11; 21; 32; 42])) /\ Multiply (Some d) (Some (DA true 2 [2; 3])) = Ok (DA true 2 (Some <$> [20; 60; 60; 120])) /\
  Substract (Some d) (Some (DA true 1 [1; 2])) = Ok (DA true 2 (Some <$> [9; 19; 28; 38])) /\ Substract (Some (DA true 1 [1; 2])) (Some d) = Throw /\
  Divide (Some d) (Some (DA true 2 [3; -3])) = Ok (DA true 2 (Some <$> [3; -6; 10; -13])) /\ Modulus (Some d) (Some (DA true 1 [7; 9])) = Ok (DA true 2 (Some <$> [3; 6; 3; 4])).
Proof. vm_compute. done. Qed.
(** The documented case of one tuple is rejected by Add and Multiply when the other array is empty. *)
Theorem C56_Add_empty_refuted : ~ forall a1 a2 : da Z, da_wf a1 -> da_wf a2 -> shapes_fit a1 a2 -> Add (Some a1) (Some a2) <> Throw.
Proof. exact add_empty_refuted. Qed.
Print Assumptions C56_Add_empty_refuted.
Theorem C56_Pow (a1 a2 : da Z) : da_wf a1 -> da_wf a2 ->
  (da_nt a1 = da_nt a2 /\ da_nc a1 = 1 /\ da_nc a2 = 1 /\ (forall e, e ∈ da_vals a2 -> 0 <= e) -> builds (da_nt a1) 1 (fun i j v => exists x e, ij a1 i 0 = Some x /\ ij a2 i 0 = Some e /\ v = x ^ e) (Pow (Some a1) (Some a2))) /\
  (~ (da_nt a1 = da_nt a2 /\ da_nc a1 = 1 /\ da_nc a2 = 1 /\ (forall e, e ∈ da_vals a2 -> 0 <= e)) -> Pow (Some a1) (Some a2) = Throw).
Proof. exact (Pow_ok a1 a2). Qed.
Print Assumptions C56_Pow.
Theorem C56_null (o : opt Z) : Add None o = Throw /\ Add o None = Throw /\ Substract None o = Throw /\ Substract o None = Throw /\ Multiply None o = Throw /\ Multiply o None = Throw /\ Divide None o = Throw /\ Divide o None = Throw /\
  Modulus None o = Throw /\ Modulus o None = Throw /\ Pow None o = Throw /\ Pow o None = Throw.
Proof. exact (new_null o). Qed.
Print Assumptions C56_null.
Theorem C56_negate (d : da Z) : da_wf d -> (da_alloc d = true -> builds (da_nt d) (da_nc d) (fun i j v => exists x, ij d i j = Some x /\ v = Z.opp x) (negate d)) /\ (da_alloc d = false -> negate d = Throw).
Proof. exact (mapTo_ok Z.opp d). Qed.
Print Assumptions C56_negate.
Theorem C56_computeAbs (d : da Z) : da_wf d -> (da_alloc d = true -> builds (da_nt d) (da_nc d) (fun i j v => exists x, ij d i j = Some x /\ v = Z.abs x) (computeAbs d)) /\ (da_alloc d = false -> computeAbs d = Throw).
Proof. exact (mapTo_ok Z.abs d). Qed.
Print Assumptions C56_computeAbs.
Theorem C56_sumPerTuple (d : da Z) : da_wf d -> (da_alloc d = true -> builds (da_nt d) 1 (fun i j v => tuple_sum d i v) (sumPerTuple d)) /\ (da_alloc d = false -> sumPerTuple d = Throw).
Proof. exact (sumPerTuple_ok d). Qed.
Print Assumptions C56_sumPerTuple.
(** Functions of one value: [maps_all good ok h d o] says that an exception is thrown without any change unless [good], and otherwise at the first value that is not [ok], the ones before it being changed. *)
Theorem C56_applyLin (d : da Z) a b : maps_all (da_alloc d = true) (fun _ _ => True) (fun _ x => a * x + b) d (applyLin d a b).
Proof. exact (applyLin_ok d a b). Qed.
Print Assumptions C56_applyLin.
Theorem C56_applyLin_component (d : da Z) a b c : da_wf d -> 0 <= c ->
  in_place (da_alloc d = true /\ c < da_nc d) (fun x y => Ok y) d (fun i j => (fun x => if j =? c then a * x + b else x) <$> ij d i j) (applyLinCompo d a b c).
Proof. exact (applyLinCompo_ok d a b c). Qed.
Print Assumptions C56_applyLin_component.
Theorem C56_abs (d : da Z) : maps_all (da_alloc d = true) (fun _ _ => True) (fun _ x => Z.abs x) d (absInPlace d).
Proof. exact (abs_ok d). Qed.
Print Assumptions C56_abs.
Theorem C56_applyInv (d : da Z) num : maps_all (da_alloc d = true) (fun _ x => x <> 0) (fun _ x => Z.quot num x) d (applyInv d num).
Proof. exact (applyInv_ok d num). Qed.
Print Assumptions C56_applyInv.
Theorem C56_applyDivideBy (d : da Z) val : maps_all (da_alloc d = true /\ val <> 0) (fun _ _ => True) (fun _ x => Z.quot x val) d (applyDivideBy d val).
Proof. exact (applyDivideBy_ok d val). Qed.
Print Assumptions C56_applyDivideBy.
Theorem C56_applyModulus (d : da Z) val : maps_all (da_alloc d = true /\ 0 < val) (fun _ _ => True) (fun _ x => Z.rem x val) d (applyModulus d val).
Proof. exact (applyModulus_ok d val). Qed.
Print Assumptions C56_applyModulus.
Theorem C56_applyRModulus (d : da Z) val : maps_all (da_alloc d = true) (fun _ x => 0 < x) (fun _ x => Z.rem val x) d (applyRModulus d val).
Proof. exact (applyRModulus_ok d val). Qed.
Print Assumptions C56_applyRModulus.
Theorem C56_applyPow (d : da Z) val : maps_all (da_alloc d = true /\ 0 <= val) (fun _ _ => True) (fun _ x => x ^ val) d (applyPow d val).
Proof. exact (applyPow_ok d val). Qed.
Print Assumptions C56_applyPow.
Theorem C56_applyRPow (d : da Z) val : maps_all (da_alloc d = true) (fun _ x => 0 <= x) (fun _ x => val ^ x) d (applyRPow d val).
Proof. exact (applyRPow_ok d val). Qed.
Print Assumptions C56_applyRPow.
Example C56_apply_ex : applyInv (DA true 1 [3; -2; 0; 5]) 7 = (Throw, DA true 1 [2; -3; 0; 5]) /\ applyLinCompo (DA true 2 [1; 2; 3; 4]) 10 5 1 = (Ok tt, DA true 2 [1; 25; 3; 45]) /\
  applyPow (DA true 1 [2; -3]) 3 = (Ok tt, DA true 1 [8; -27]) /\ applyRPow (DA true 1 [2; 3]) 5 = (Ok tt, DA true 1 [25; 125]) /\ applyRModulus (DA true 1 [4; 0; 3]) 7 = (Throw, DA true 1 [3; 0; 3]) /\
  applyModulus (DA true 1 [4; -5]) 3 = (Ok tt, DA true 1 [1; -2]) /\ sumPerTuple (DA true 3 [1; 2; 3; 4; 5; 6]) = Ok (DA true 1 [Some 6; Some 15]) /\ negate (DA true 2 [1; -2]) = Ok (DA true 2 [Some (-1); Some 2]).
Proof. vm_compute. done. Qed.
