(** C76: Gauss localizations of the cells. *)
From Coq Require Import QArith Qabs.
From Verif Require Import Base DataArray IndexSpec CellTable UmModel UmSpec UcProofs6 TyExamples GlModel GlSpec GlProofs GlProofs2 GlExamples.
Local Open Scope Z_scope.

(** After any sequence of calls, whether some of them are refused or not: the localization of a cell is that of the last correct call that covers it since the last clear. *)
Theorem C76_history m cells ks i : stores m cells -> Forall no_negative ks ->
  match loc_of (runs m ks (GD None [])) i with
  | Some l => exists before k after, ks = before ++ k :: after /\ gives (um_dim m) cells k i l /\ forall k', k' ∈ after -> k' <> Clear /\ forall l', ~ gives (um_dim m) cells k' i l'
  | None => forall before k after l, ks = before ++ k :: after -> gives (um_dim m) cells k i l -> Clear ∈ after
  end.
Proof. exact (history m cells ks i). Qed.
Print Assumptions C76_history.
Example C76_history_mixed : stores mixed mixed_cells /\ Forall no_negative [on_tri; OnCells [1] ref3 [] []; on_one; on_quad] /\ gives 2 mixed_cells on_one 2 tri3 /\
  runs mixed [on_tri; OnCells [1] ref3 [] []; on_one; on_quad] (GD None []) = all_set /\ loc_of all_set 2 = Some tri3 /\ loc_of all_set 3 = Some tri1 /\ loc_of all_set 4 = Some quad1.
Proof. split; [exact mixed_stores|]. split; [repeat constructor; intros i Hi; apply elem_of_list_singleton in Hi as ->; done|]. split; [exact on_one_gives|]. vm_compute. done. Qed.
(** The objects such sequences reach: each id of the array is that of a localization, or -1; no localization is left without a cell. *)
Theorem C76_consistent m cells ks : stores m cells -> Forall no_negative ks -> good (zlen cells) (runs m ks (GD None [])) /\ all_used (runs m ks (GD None [])).
Proof. exact (runs_good m cells ks). Qed.
Print Assumptions C76_consistent.
(** One call: it succeeds when it is correct, it is refused otherwise; a refused call changes the localization of no cell, a correct one that of the cells it covers. *)
Theorem C76_one_call m cells k g : stores m cells -> good (zlen cells) g -> no_negative k ->
  good (zlen cells) (snd (run m k g)) /\ (all_used g -> all_used (snd (run m k g))) /\
  (forall i l, gives (um_dim m) cells k i l -> loc_of (snd (run m k g)) i = Some l) /\
  (forall i, (forall l, ~ gives (um_dim m) cells k i l) -> k <> Clear -> loc_of (snd (run m k g)) i = loc_of g i) /\
  (fst (run m k g) = Ok tt /\ correct (um_dim m) cells k /\ all_used (snd (run m k g)) \/ fst (run m k g) = Throw /\ ~ correct (um_dim m) cells k).
Proof. exact (run_ok m cells k g). Qed.
Print Assumptions C76_one_call.
Example C76_one_call_mixed : good (zlen mixed_cells) all_set /\ correct 2 mixed_cells on_tri /\ run mixed on_tri all_set = (Ok tt, GD (Some [1; 0; 1; 1; 0]) [quad1; tri1]) /\
  run mixed (OnCells [0; 1] ref3 [1 # 3; 1 # 3]%Q [1 # 2]%Q) all_set = (Throw, all_set).
Proof. split; [exact all_set_good|]. split; [exact on_tri_correct|]. vm_compute. done. Qed.
(** A negative id of cell is not refused: memory before the arrays is read. *)
Theorem C76_negative_refuted : exists m cells k g, stores m cells /\ good (zlen cells) g /\ ~ correct (um_dim m) cells k /\ fst (run m k g) = UB.
Proof.
  exists mixed, mixed_cells, (OnCells [-1] ref3 [1 # 3; 1 # 3]%Q [1 # 2]%Q), all_set. split; [exact mixed_stores|]. split; [exact all_set_good|]. split; [|vm_compute; reflexivity]. intros (_ & t & _ & H). destruct (H (-1) ltac:(left)) as (c & Hc & _). discriminate Hc.
Qed.
Print Assumptions C76_negative_refuted.
(** The removal of the localizations without cells: every cell keeps its own, those that stay are in the same order. *)
Theorem C76_zip g dpc : gd_dpc g = Some dpc -> (forall id, id ∈ dpc -> id = -1 \/ 0 <= id < zlen (gd_loc g)) ->
  exists dpc' loc', zipGaussLocalizations g = Ok (GD (Some dpc') loc') /\ zlen dpc' = zlen dpc /\
    (forall id, id ∈ dpc' -> id = -1 \/ 0 <= id < zlen loc') /\ (forall c, loc_of (GD (Some dpc') loc') c = loc_of g c) /\
    (forall c, dpc' @ c = Some (-1) <-> dpc @ c = Some (-1)) /\ (forall id, 0 <= id < zlen loc' -> id ∈ dpc') /\
    exists ids, ascending ids /\ (forall id, id ∈ ids <-> 0 <= id /\ id ∈ dpc) /\ Forall2 (fun id l => gd_loc g @ id = Some l) ids loc'.
Proof. exact (zip_ok g dpc). Qed.
Print Assumptions C76_zip.
Example C76_zip_ex : zipGaussLocalizations (GD (Some [3; -1; 1; 3]) [tri1; tri3; tri1; quad1]) = Ok (GD (Some [1; -1; 0; 1]) [tri3; quad1]).
Proof. vm_compute. reflexivity. Qed.

(** The queries. *)
Theorem C76_of_cell n g dpc c : good n g -> gd_dpc g = Some dpc -> 0 <= c < n ->
  match loc_of g c with Some l => exists id, getGaussLocalizationIdOfOneCell g c = Ok id /\ getGaussLocalization g id = Ok l | None => getGaussLocalizationIdOfOneCell g c = Throw end.
Proof. exact (idOfCell_ok n g dpc c). Qed.
Print Assumptions C76_of_cell.
Theorem C76_ids_of_type g dpc t : gd_dpc g = Some dpc -> exists ids, getGaussLocalizationIdsOfOneType g t = Ok ids /\ ascending ids /\ forall id, id ∈ ids <-> exists l, gd_loc g @ id = Some l /\ gl_type l = t.
Proof. exact (idsOfType_ok g dpc t). Qed.
Print Assumptions C76_ids_of_type.
Theorem C76_id_of_type g dpc t : gd_dpc g = Some dpc ->
  (exists id, getGaussLocalizationIdOfOneType g t = Ok id /\ forall i, (exists l, gd_loc g @ i = Some l /\ gl_type l = t) <-> i = id) \/
  getGaussLocalizationIdOfOneType g t = Throw /\ ~ exists id, forall i, (exists l, gd_loc g @ i = Some l /\ gl_type l = t) <-> i = id.
Proof. exact (idOfType_ok g dpc t). Qed.
Print Assumptions C76_id_of_type.
Theorem C76_cells_having g dpc id : gd_dpc g = Some dpc ->
  (0 <= id < zlen (gd_loc g) /\ exists cs, getCellIdsHavingGaussLocalization g id = Ok cs /\ ascending cs /\ forall c, c ∈ cs <-> dpc @ c = Some id) \/
  ~ 0 <= id < zlen (gd_loc g) /\ getCellIdsHavingGaussLocalization g id = Throw.
Proof. exact (cellsHaving_ok g dpc id). Qed.
Print Assumptions C76_cells_having.
Theorem C76_no_orphan n g dpc : good n g -> gd_dpc g = Some dpc -> checkNoOrphanCells g = Ok tt /\ complete g \/ checkNoOrphanCells g = Throw /\ ~ complete g.
Proof. exact (orphan_ok n g dpc). Qed.
Print Assumptions C76_no_orphan.
Example C76_queries : good 5 all_set /\ getGaussLocalizationIdOfOneCell all_set 2 = Ok 1 /\ getGaussLocalizationIdsOfOneType all_set NORM_TRI3 = Ok [0; 1] /\ getGaussLocalizationIdOfOneType all_set NORM_TRI3 = Throw /\
  getGaussLocalizationIdOfOneType all_set NORM_QUAD4 = Ok 2 /\ getCellIdsHavingGaussLocalization all_set 2 = Ok [1; 4] /\ checkNoOrphanCells all_set = Ok tt /\ checkNoOrphanCells (GD (Some [0; -1]) [tri1]) = Throw.
Proof. split; [exact all_set_good|]. vm_compute. done. Qed.
(** A localization replaced, the number of localizations changed. *)
Theorem C76_replace g id l : 0 <= id -> exists g', setGaussLocalization id l g = Ok g' /\ gd_dpc g' = gd_dpc g /\ zlen (gd_loc g') = Z.max (zlen (gd_loc g)) (id + 1) /\
  (forall k, gd_loc g' @ k = if k =? id then Some l else if (0 <=? k) && (k <? zlen (gd_loc g)) then gd_loc g @ k else if (0 <=? k) && (k <? id) then Some (GL NORM_ERROR [] [] []) else None).
Proof. exact (setLoc_ok g id l). Qed.
Print Assumptions C76_replace.
Theorem C76_resize g sz : 0 <= sz -> exists g', resizeLocalizationVector sz g = Ok g' /\ gd_dpc g' = gd_dpc g /\ zlen (gd_loc g') = sz /\
  (forall k, 0 <= k < sz -> gd_loc g' @ k = if k <? zlen (gd_loc g) then gd_loc g @ k else Some (GL NORM_ERROR [] [] [])).
Proof. exact (resizeLoc_ok g sz). Qed.
Print Assumptions C76_resize.
Example C76_replace_ex : setGaussLocalization 4 tri1 (GD None [tri3]) = Ok (GD None [tri3; GL NORM_ERROR [] [] []; GL NORM_ERROR [] [] []; GL NORM_ERROR [] [] []; tri1]) /\
  setGaussLocalization (-1) tri1 all_set = Throw /\ resizeLocalizationVector 1 all_set = Ok (GD (gd_dpc all_set) [tri1]).
Proof. vm_compute. done. Qed.

(** Equality up to a precision. *)
Theorem C76_equal a b eps : plain a -> exists r, isEqualLoc a b eps = Ok r /\ (r = true <-> near_loc eps a b).
Proof. exact (isEqual_ok a b eps). Qed.
Print Assumptions C76_equal.
(** The aggregation of discretizations: the cells of each one after the other, each with the localization it had, up to the precision 1e-10; no two localizations equal. *)
Theorem C76_aggregate fds : (forall g l, g ∈ fds -> l ∈ gd_loc g -> plain l) ->
  (exists r, aggregateGauss fds = Ok r /\ fds <> [] /\ Forall complete fds /\ complete r /\ ncells r = zsum (ncells <$> fds) /\
     (forall k g c l, fds @ k = Some g -> loc_of g c = Some l -> exists l', loc_of r (zsum (ncells <$> take (Z.to_nat k) fds) + c) = Some l' /\ near_loc (1 # 10000000000) l l') /\
     (forall l, l ∈ gd_loc r -> exists g, g ∈ fds /\ l ∈ gd_loc g) /\
     (forall i j a b, i < j -> gd_loc r @ i = Some a -> gd_loc r @ j = Some b -> ~ near_loc (1 # 10000000000) b a)) \/
  aggregateGauss fds = Throw /\ (fds = [] \/ ~ Forall complete fds).
Proof. exact (aggregate_final fds). Qed.
Print Assumptions C76_aggregate.
Example C76_aggregate_ex : (forall g l, g ∈ [all_set; other] -> l ∈ gd_loc g -> plain l) /\ Forall complete [all_set; other] /\
  aggregateGauss [all_set; other] = Ok (GD (Some [0; 2; 1; 0; 2; 0; 2; 2]) [tri1; tri3; quad1]) /\ aggregateGauss [all_set; GD (Some [-1]) [tri1]] = Throw.
Proof. split; [exact plain_example|]. split; [repeat constructor; [exact all_set_complete|exact other_complete]|]. vm_compute. done. Qed.
(** Localizations on points have no coordinates: comparing two of them, so aggregating discretizations on points, reads past the end of an empty vector. *)
Theorem C76_points_refuted : exists l g, newLoc (gl_type l) (gl_ref l) (gl_gauss l) (gl_w l) = Ok l /\ complete g /\ gd_loc g = [l] /\ isEqualLoc l l (1 # 10) = UB /\ aggregateGauss [g; g] = UB.
Proof.
  exists (GL NORM_POINT1 [] [] [1%Q]), dots. split; [reflexivity|]. split; [|split; [reflexivity|split; vm_compute; reflexivity]]. exists [0; 0]. split; [done|]. intros id Hid. change (0 <= id < 1). apply elem_of_cons in Hid as [->|Hid]; [lia|]. apply elem_of_list_singleton in Hid as ->. lia.
Qed.
Print Assumptions C76_points_refuted.
