(** StructuredCoincidentDEC.cxx: transfer of the values of a field between two distributions of the same elements.
    The world is made of the processes 0 … N-1, each in one of the two groups (broadcastTopology uses the whole world, and the union group is then the world).
    MPI is modelled by its effect: broadcast gives all processes the serialized topology, allToAllV copies the announced segments. *)
From Verif Require Import Base StdModel BlkModel.

(** Lines 104-125, 264-322: what the other side has of a topology. *)
Definition broadcast (t : topo) : res topo := let* buf := serialize t in unserialize buf.
(** Lines 147-155 and 221-230: process [me] of [mine] finds the process of [other] that has its element [i]. *)
Definition partner (mine other : topo) (me i : Z) : res Z :=
  let* g := localToGlobal mine me (me, i) in let* (p, _) := globalToLocal other g in Ok p.
(** The same lines; of the arrays filled there only the sizes are used. *)
Definition partnerSizes (mine other : topo) (me nb m : Z) : res (list Z) :=
  forZ 0 nb (fun i sizes => let* p := partner mine other me i in let* c := rd sizes p in wr sizes p (c + 1)) (replicate (Z.to_nat m) 0).
(** Lines 164-176, 237-247; translateRank gives the world rank of a process of a group. *)
Definition unionCounts (N : Z) (g sizes : list Z) : res (list Z) :=
  forZ 0 (zlen g) (fun i counts => let* w := rd g i in let* s := rd sizes i in wr counts w s) (replicate (Z.to_nat N) 0).
(** Lines 178-179, 186-189, 248: partial sums; the array is filled in increasing order. *)
Definition starts (n : Z) (l : list Z) : res (list Z) :=
  ub_if n <=? 0 >>> forZ 1 n (fun i d => let* a := rd d (i - 1) in let* c := rd l (i - 1) in Ok (d ++ [a + c])) [0].
(** Lines 134-205, on a process of the source: counts, displacements and buffer. *)
Definition prepareSource {A} (N : Z) (tS tT : topo) (me : Z) (value : list A) : res (list Z * list Z * list (option A)) :=
  group tT (fun gT =>
  let* nb := getNbLocalElements tS me in
  let* sizes := partnerSizes tS tT me nb (zlen gT) in
  let* counts := unionCounts N gT sizes in
  let* displs := starts N counts in
  let* counter := starts (zlen gT) sizes in
  let* (buf, _) := forZ 0 nb (fun i '(buf, cnt) =>
    let* p := partner tS tT me i in
    let* c := rd cnt p in
    let* v := rd value i in
    let* buf := wrc buf c v in
    let* cnt := wr cnt p (c + 1) in Ok (buf, cnt)) (replicate (Z.to_nat nb) None, counter) in
  Ok (counts, displs, buf)).
(** Lines 210-252, on a process of the target: number of elements, counts and displacements. *)
Definition prepareTarget (N : Z) (tS tT : topo) (me : Z) : res (Z * list Z * list Z) :=
  group tS (fun gS =>
  let* nb := getNbLocalElements tT me in
  let* sizes := partnerSizes tT tS me nb (zlen gS) in
  let* counts := unionCounts N gS sizes in
  let* displs := starts N counts in
  Ok (nb, counts, displs)).
(** Lines 330-333, 371-374: four entries are printed. *)
Definition printed (counts displs : list Z) : res unit :=
  forZ 0 4 (fun i _ => let* _ := rd counts i in let* _ := rd displs i in Ok ()) ().
(** CommInterface::allToAllV for the process [w]: [senders] gives the counts, displacements and buffer of every process of the world. *)
Definition allToAllV {A} (N w : Z) (senders : list (list Z * list Z * list (option A))) (nb : Z) (rcounts rdispls : list Z) : res (list (option A)) :=
  forZ 0 N (fun i rb =>
    let* (sc, sd, sb) := rd senders i in
    let* c := rd sc w in let* d := rd sd w in let* c' := rd rcounts i in let* d' := rd rdispls i in
    ub_if negb (c =? c') >>>
    forZ 0 c (fun k rb => let* v := rd sb (d + k) in wr rb (d' + k) v) rb) (replicate (Z.to_nat nb) None).
(** Lines 342-364. *)
Definition recvData {A} (tS tT : topo) (me nb : Z) (rcounts : list Z) (rb : list (option A)) (value : list A) : res (list A) :=
  group tS (fun gS =>
  let* counters := forZ 0 (zlen gS - 1) (fun i d => let* w := rd gS i in let* a := rd d i in let* c := rd rcounts w in Ok (d ++ [a + c])) [0] in
  let* (value, _) := forZ 0 nb (fun i '(value, cnt) =>
    let* p := partner tT tS me i in
    let* c := rd cnt p in
    let* v := rdc rb c in
    let* value := wr value i v in
    let* cnt := wr cnt p (c + 1) in Ok (value, cnt)) (value, counters) in
  Ok value).
Definition collect {B} (n : Z) (f : Z -> res B) : res (list B) := forZ 0 n (fun p acc => let* r := f p in Ok (acc ++ [r])) [].
(** synchronize then sendData and recvData, lines 104-125, 325-412, on all processes: [svals] and [tvals] are the arrays of the fields of the
    processes of the source and of the target; the result is the arrays of the target.  The other processes send nothing. *)
Definition exchange {A} (N : Z) (tS tT : topo) (svals tvals : list (list A)) : res (list (list A)) :=
  let* tS' := broadcast tS in
  let* tT' := broadcast tT in
  throw_if negb (t_nb tS =? t_nb tT) >>>
  group tS (fun gS => group tT (fun gT =>
  let* srcs := collect (zlen gS) (fun p => let* v := rd svals p in let* r := prepareSource N tS tT' p v in let* _ := printed r.1.1 r.1.2 in Ok r) in
  let zeros := replicate (Z.to_nat N) 0 in
  let* senders := forZ 0 (zlen gS) (fun p s => let* w := rd gS p in let* r := rd srcs p in wr s w r) (replicate (Z.to_nat N) (zeros, zeros, [])) in
  collect (zlen gT) (fun q =>
    let* (nb, rc, rdi) := prepareTarget N tS' tT q in
    let* _ := printed rc rdi in
    let* w := rd gT q in
    let* rb := allToAllV N w senders nb rc rdi in
    let* v := rd tvals q in
    recvData tS' tT q nb rc rb v))).
