(** Model of the star list and the orientation shared by two FreeRTOS tasks: BluetoothSerial calls onBluetoothData
    (src/main.cpp:201-209) from its own task, which may synchronise a star or (indirectly) read the list while
    loop() synchronises a star received over TCP, clears the list or stores a new orientation.  There is no lock.
    Each constructor of [call] is one statement still to be executed; statements of different calls may interleave
    in any order.  Simplifications: memory is sequentially consistent; a double, one element compared in the search
    for duplicates, lines 35-46 together, and qsort are atomic; the triangulation that follows is not included.  All
    of these make fewer behaviours possible than the real program has. *)
From Verif Require Import Base Num M_Linalg M_Alignment.

Section Race2.
Context (N : Num).
Notation F := (F N). Notation point := (point N). Notation vpair := (vpair N).
Context (qsort : list vpair -> list vpair).

(** telescope.orientation; alignment.numVertices and alignment.vertices *)
Record shared := Shared { s_orient : point; s_num : Z; s_verts : list vpair }.

Inductive call :=
| LoadAz (ref : point)                       (* telescope.cpp:34, mytypes.cpp: Point(Horizontal): x(in.az) ... *)
| LoadAlt (az : F) (ref : point)             (* ... y(in.alt) *)
| Check (i : Z) (act ref : point)            (* alignment.cpp:28-32, iteration i *)
| Wrap (act ref : point)                     (* alignment.cpp:34-46 *)
| SetActual (act ref : point)                (* alignment.cpp:48 *)
| SetReference (ref : point)                 (* alignment.cpp:49 *)
| LoadNum                                    (* alignment.cpp:50, the right-hand side *)
| StoreNum (n : Z)                           (* alignment.cpp:50, the assignment *)
| Sort                                       (* alignment.cpp:53 *)
| Done (result : bool)                       (* alignment.cpp:31 or 54 *)
| Clear                                      (* alignment.cpp:59 *)
| StoreAz (az alt : F) | StoreAlt (alt : F). (* telescope.cpp:19, 20 *)

(** one statement *)
Definition micro (s : shared) (c : call) : res (shared * call) :=
  match c with
  | LoadAz ref => Ok (s, LoadAlt (px (s_orient s)) ref)
  | LoadAlt az ref => Ok (s, Check 0 (Pt az (py (s_orient s))) ref)
  | Check i act ref =>
      if i <? s_num s then
        do v <- rdz (s_verts s) i;
        if feq N (px (actual v)) (px act) && feq N (py (actual v)) (py act) then Ok (s, Done false) else Ok (s, Check (i + 1) act ref)
      else Ok (s, Wrap act ref)
  | Wrap act ref =>
      if 0 <? s_num s then do v0 <- rd (s_verts s) 0; Ok (s, SetActual act (unwrap N v0 ref)) else Ok (s, SetActual act ref)
  | SetActual act ref =>
      do v <- rdz (s_verts s) (s_num s);
      do mem <- wr (s_verts s) (Z.to_nat (s_num s)) (VP act (reference v)); Ok (Shared (s_orient s) (s_num s) mem, SetReference ref)
  | SetReference ref =>
      do v <- rdz (s_verts s) (s_num s);
      do mem <- wr (s_verts s) (Z.to_nat (s_num s)) (VP (actual v) ref); Ok (Shared (s_orient s) (s_num s) mem, LoadNum)
  | LoadNum => Ok (s, StoreNum ((s_num s + 1) mod MAX_ALIGNMENT_POINTS))
  | StoreNum n => Ok (Shared (s_orient s) n (s_verts s), Sort)
  | Sort => let k := Z.to_nat (s_num s) in
      Ok (Shared (s_orient s) (s_num s) (qsort (firstn k (s_verts s)) ++ skipn k (s_verts s)), Done true)
  | Done b => Ok (s, Done b)
  | Clear => Ok (Shared (s_orient s) 0 (s_verts s), Done true)
  | StoreAz az alt => Ok (Shared (Pt az (py (s_orient s))) (s_num s) (s_verts s), StoreAlt alt)
  | StoreAlt alt => Ok (Shared (Pt (px (s_orient s)) alt) (s_num s) (s_verts s), Done true)
  end.

(** the calls under way; the schedule names the call whose next statement runs *)
Fixpoint set_call (l : list call) (i : nat) (c : call) : list call :=
  match l, i with [], _ => [] | _ :: l, O => c :: l | x :: l, S i => x :: set_call l i c end.
Definition advance2 (s : shared) (l : list call) (i : nat) : res (shared * list call) :=
  match nth_error l i with
  | None => Ok (s, l)
  | Some c => do '(s, c) <- micro s c; Ok (s, set_call l i c)
  end.
Fixpoint run (s : shared) (l : list call) (schedule : list nat) : res (shared * list call) :=
  match schedule with [] => Ok (s, l) | i :: schedule => do '(s, l) <- advance2 s l i; run s l schedule end.
End Race2.
Arguments Shared {N}. Arguments s_orient {N}. Arguments s_num {N}. Arguments s_verts {N}.
Arguments LoadAz {N}. Arguments LoadAlt {N}. Arguments Check {N}. Arguments Wrap {N}. Arguments SetActual {N}. Arguments SetReference {N}.
Arguments LoadNum {N}. Arguments StoreNum {N}. Arguments Sort {N}. Arguments Done {N}. Arguments Clear {N}. Arguments StoreAz {N}. Arguments StoreAlt {N}.
