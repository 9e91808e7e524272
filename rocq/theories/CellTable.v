(** The models of the cells: CellModel.cxx 291-1513, written out by tools/gen_celltable.py from the assignments of the constructor.
    [None] is a value that the constructor leaves unset. *)
From Verif Require Import Base.
Local Open Scope Z_scope.

(** CellModel.hxx 122-146: the fields of a model; [cm_sons] gathers _sons_type, _nb_of_sons_con and _sons_con, and [cm_little] the little sons, none when their number is left at its greatest value (302). *)
Record cm := CM { cm_type : Z; cm_dim : Z; cm_nbpts : Z; cm_nbsons : Z; cm_dyn : bool; cm_quad : bool; cm_ext : Z; cm_revext : Z; cm_lin : Z; cm_quadt : Z; cm_quadt2 : Z;
  cm_sons : list (Z * list Z); cm_little : option (list (list Z)); cm_extrude : list Z }.

(** Bases/NormalizedGeometricTypes 25-56. *)
Definition NORM_POINT1 : Z := 0.
Definition NORM_SEG2 : Z := 1.
Definition NORM_SEG3 : Z := 2.
Definition NORM_SEG4 : Z := 10.
Definition NORM_POLYL : Z := 33.
Definition NORM_TRI3 : Z := 3.
Definition NORM_QUAD4 : Z := 4.
Definition NORM_POLYGON : Z := 5.
Definition NORM_TRI6 : Z := 6.
Definition NORM_TRI7 : Z := 7.
Definition NORM_QUAD8 : Z := 8.
Definition NORM_QUAD9 : Z := 9.
Definition NORM_QPOLYG : Z := 32.
Definition NORM_TETRA4 : Z := 14.
Definition NORM_PYRA5 : Z := 15.
Definition NORM_PENTA6 : Z := 16.
Definition NORM_HEXA8 : Z := 18.
Definition NORM_TETRA10 : Z := 20.
Definition NORM_HEXGP12 : Z := 22.
Definition NORM_PYRA13 : Z := 23.
Definition NORM_PENTA15 : Z := 25.
Definition NORM_PENTA18 : Z := 28.
Definition NORM_HEXA20 : Z := 30.
Definition NORM_HEXA27 : Z := 27.
Definition NORM_POLYHED : Z := 31.
Definition NORM_ERROR : Z := 40.

(** CellModel.cxx 305-313 *)
Definition cm_POINT1 : cm := CM 0 0 1 0 false false 1 40 40 40 40
  [] (None) [].
(** CellModel.cxx 314-336 *)
Definition cm_SEG2 : cm := CM 1 1 2 2 false false 4 0 40 2 2
  [(0, [0]); (0, [1])] (None) [0; 1; 31; 30].
(** CellModel.cxx 337-364 *)
Definition cm_SEG3 : cm := CM 2 1 3 3 false true 8 40 1 40 40
  [(0, [0]); (0, [1]); (0, [2])] (None) [0; 1; 61; 60; 2; 31; 62; 30].
(** CellModel.cxx 365-386 *)
Definition cm_SEG4 : cm := CM 10 1 4 4 false true 40 40 1 40 40
  [(0, [0]); (0, [1]); (0, [2]); (0, [3])] (None) [].
(** CellModel.cxx 538-566 *)
Definition cm_TRI3 : cm := CM 3 2 3 3 false false 16 40 40 6 7
  [(1, [0; 1]); (1, [1; 2]); (1, [2; 0])] (None) [0; 1; 2; 30; 31; 32].
(** CellModel.cxx 502-537 *)
Definition cm_QUAD4 : cm := CM 4 2 4 4 false false 18 40 40 8 9
  [(1, [0; 1]); (1, [1; 2]); (1, [2; 3]); (1, [3; 0])] (None) [0; 1; 2; 3; 30; 31; 32; 33].
(** CellModel.cxx 567-607 *)
Definition cm_TRI6 : cm := CM 6 2 6 3 false true 25 40 3 40 40
  [(2, [0; 1; 3]); (2, [1; 2; 4]); (2, [2; 0; 5])] (None) [0; 1; 2; 60; 61; 62; 3; 4; 5; 63; 64; 65; 30; 31; 32].
(** CellModel.cxx 608-651 *)
Definition cm_TRI7 : cm := CM 7 2 7 3 false true 28 40 3 40 40
  [(2, [0; 1; 3]); (2, [1; 2; 4]); (2, [2; 0; 5])] (None) [0; 1; 2; 60; 61; 62; 3; 4; 5; 63; 64; 65; 30; 31; 32; 33; 34; 35].
(** CellModel.cxx 652-702 *)
Definition cm_QUAD8 : cm := CM 8 2 8 4 false true 30 40 4 40 40
  [(2, [0; 1; 4]); (2, [1; 2; 5]); (2, [2; 3; 6]); (2, [3; 0; 7])] (None) [0; 1; 2; 3; 60; 61; 62; 63; 4; 5; 6; 7; 64; 65; 66; 67; 30; 31; 32; 33].
(** CellModel.cxx 703-760 *)
Definition cm_QUAD9 : cm := CM 9 2 9 4 false true 27 40 4 40 40
  [(2, [0; 1; 4]); (2, [1; 2; 5]); (2, [2; 3; 6]); (2, [3; 0; 7])] (None) [0; 1; 2; 3; 60; 61; 62; 63; 4; 5; 6; 7; 64; 65; 66; 67; 30; 31; 32; 33; 8; 34; 35; 36; 37; 68; 38].
(** CellModel.cxx 387-428 *)
Definition cm_TETRA4 : cm := CM 14 3 4 4 false false 40 40 40 20 40
  [(3, [0; 1; 2]); (3, [0; 3; 1]); (3, [1; 3; 2]); (3, [2; 3; 0])] (Some [[0; 1]; [1; 2]; [2; 0]; [0; 3]; [1; 3]; [2; 3]]) [].
(** CellModel.cxx 429-501 *)
Definition cm_HEXA8 : cm := CM 18 3 8 6 false false 40 4 40 30 27
  [(4, [0; 1; 2; 3]); (4, [4; 7; 6; 5]); (4, [0; 4; 5; 1]); (4, [1; 5; 6; 2]); (4, [2; 6; 7; 3]); (4, [3; 7; 4; 0])] (Some [[0; 1]; [1; 2]; [2; 3]; [3; 0]; [4; 5]; [5; 6]; [6; 7]; [7; 4]; [0; 4]; [1; 5]; [2; 6]; [3; 7]]) [].
(** CellModel.cxx 761-812 *)
Definition cm_PYRA5 : cm := CM 15 3 5 5 false false 40 40 40 23 40
  [(4, [0; 1; 2; 3]); (3, [0; 4; 1]); (3, [1; 4; 2]); (3, [2; 4; 3]); (3, [3; 4; 0])] (Some [[0; 1]; [1; 2]; [2; 3]; [3; 0]; [0; 4]; [1; 4]; [2; 4]; [3; 4]]) [].
(** CellModel.cxx 813-870 *)
Definition cm_PENTA6 : cm := CM 16 3 6 5 false false 40 3 40 25 40
  [(3, [0; 1; 2]); (3, [3; 5; 4]); (4, [0; 3; 4; 1]); (4, [1; 4; 5; 2]); (4, [2; 5; 3; 0])] (Some [[0; 1]; [1; 2]; [2; 0]; [3; 4]; [4; 5]; [5; 3]; [0; 3]; [1; 4]; [2; 5]]) [].
(** CellModel.cxx 871-931 *)
Definition cm_TETRA10 : cm := CM 20 3 10 4 false true 40 40 14 40 40
  [(6, [0; 1; 2; 4; 5; 6]); (6, [0; 3; 1; 7; 8; 4]); (6, [1; 3; 2; 8; 9; 5]); (6, [2; 3; 0; 9; 7; 6])] (Some [[0; 1; 4]; [1; 2; 5]; [2; 0; 6]; [0; 3; 7]; [1; 3; 8]; [2; 3; 9]]) [].
(** CellModel.cxx 932-1032 *)
Definition cm_HEXGP12 : cm := CM 22 3 12 8 false false 40 40 40 40 40
  [(5, [0; 1; 2; 3; 4; 5]); (5, [6; 11; 10; 9; 8; 7]); (4, [0; 6; 7; 1]); (4, [1; 7; 8; 2]); (4, [2; 8; 9; 3]); (4, [3; 9; 10; 4]); (4, [4; 10; 11; 5]); (4, [5; 11; 6; 0])] (Some [[0; 1]; [1; 2]; [2; 3]; [3; 4]; [4; 5]; [5; 0]; [6; 7]; [7; 8]; [8; 9]; [9; 10]; [10; 11]; [11; 6]; [0; 6]; [1; 7]; [2; 8]; [3; 9]; [4; 10]; [5; 11]]) [].
(** CellModel.cxx 1033-1109 *)
Definition cm_PYRA13 : cm := CM 23 3 13 5 false true 40 40 15 40 40
  [(8, [0; 1; 2; 3; 5; 6; 7; 8]); (6, [0; 4; 1; 9; 10; 5]); (6, [1; 4; 2; 10; 11; 6]); (6, [2; 4; 3; 11; 12; 7]); (6, [3; 4; 0; 12; 9; 8])] (Some [[0; 1; 5]; [1; 2; 6]; [2; 3; 7]; [3; 0; 8]; [0; 4; 9]; [1; 4; 10]; [2; 4; 11]; [3; 4; 12]]) [].
(** CellModel.cxx 1110-1193 *)
Definition cm_PENTA15 : cm := CM 25 3 15 5 false true 40 40 16 40 40
  [(6, [0; 1; 2; 6; 7; 8]); (6, [3; 5; 4; 11; 10; 9]); (8, [0; 3; 4; 1; 12; 9; 13; 6]); (8, [1; 4; 5; 2; 13; 10; 14; 7]); (8, [2; 5; 3; 0; 14; 11; 12; 8])] (Some [[0; 1; 6]; [1; 2; 7]; [2; 0; 8]; [3; 4; 9]; [4; 5; 10]; [5; 3; 11]; [0; 3; 12]; [1; 4; 13]; [2; 5; 14]]) [].
(** CellModel.cxx 1194-1280 *)
Definition cm_PENTA18 : cm := CM 28 3 18 5 false true 40 40 16 40 40
  [(6, [0; 1; 2; 6; 7; 8]); (6, [3; 5; 4; 11; 10; 9]); (9, [0; 3; 4; 1; 12; 9; 13; 6; 15]); (9, [1; 4; 5; 2; 13; 10; 14; 7; 16]); (9, [2; 5; 3; 0; 14; 11; 12; 8; 17])] (Some [[0; 1; 6]; [1; 2; 7]; [2; 0; 8]; [3; 4; 9]; [4; 5; 10]; [5; 3; 11]; [0; 3; 12]; [1; 4; 13]; [2; 5; 14]]) [].
(** CellModel.cxx 1281-1387 *)
Definition cm_HEXA20 : cm := CM 30 3 20 6 false true 40 40 18 40 40
  [(8, [0; 1; 2; 3; 8; 9; 10; 11]); (8, [4; 7; 6; 5; 15; 14; 13; 12]); (8, [0; 4; 5; 1; 16; 12; 17; 8]); (8, [1; 5; 6; 2; 17; 13; 18; 9]); (8, [2; 6; 7; 3; 18; 14; 19; 10]); (8, [3; 7; 4; 0; 19; 15; 16; 11])] (Some [[0; 1; 8]; [1; 2; 9]; [2; 3; 10]; [3; 0; 11]; [4; 5; 12]; [5; 6; 13]; [6; 7; 14]; [7; 4; 15]; [0; 4; 16]; [1; 5; 17]; [2; 6; 18]; [3; 7; 19]]) [].
(** CellModel.cxx 1388-1463 *)
Definition cm_HEXA27 : cm := CM 27 3 27 6 false true 40 40 18 40 40
  [(9, [0; 1; 2; 3; 8; 9; 10; 11; 20]); (9, [4; 7; 6; 5; 15; 14; 13; 12; 25]); (9, [0; 4; 5; 1; 16; 12; 17; 8; 21]); (9, [1; 5; 6; 2; 17; 13; 18; 9; 22]); (9, [2; 6; 7; 3; 18; 14; 19; 10; 23]); (9, [3; 7; 4; 0; 19; 15; 16; 11; 24])] (None) [].
(** CellModel.cxx 1464-1474 *)
Definition cm_POLYGON : cm := CM 5 2 0 0 true false 31 40 40 32 40
  [] (None) [].
(** CellModel.cxx 1475-1483 *)
Definition cm_POLYHED : cm := CM 31 3 0 0 true false 40 40 40 40 40
  [] (None) [].
(** CellModel.cxx 1484-1494 *)
Definition cm_QPOLYG : cm := CM 32 2 0 0 true true 40 40 5 40 40
  [] (None) [].
(** CellModel.cxx 1495-1504 *)
Definition cm_POLYL : cm := CM 33 1 0 0 true false 5 40 40 40 40
  [] (None) [].
(** CellModel.cxx 1505-1511 *)
Definition cm_ERROR : cm := CM 40 4294967295 4294967295 4294967295 false false 40 40 40 40 40
  [] (None) [].

(** CellModel.cxx 261-289: BuildUniqueInstance *)
Definition models : list cm := [cm_POINT1; cm_SEG2; cm_SEG3; cm_SEG4; cm_TRI3; cm_QUAD4; cm_TRI6; cm_TRI7; cm_QUAD8; cm_QUAD9; cm_TETRA4; cm_HEXA8; cm_PYRA5; cm_PENTA6; cm_TETRA10; cm_HEXGP12; cm_PYRA13; cm_PENTA15; cm_PENTA18; cm_HEXA20; cm_HEXA27; cm_POLYGON; cm_POLYHED; cm_QPOLYG; cm_POLYL; cm_ERROR].

(** CellModel.cxx 200-212: GetCellModel *)
Definition GetCellModel (type : Z) : res cm := match List.find (fun c => cm_type c =? type) models with Some c => Ok c | None => Throw end.
