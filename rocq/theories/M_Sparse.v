(** Model of the sparse matrix storage, lib/linalg/src/ElementStorage.h:62-120 [Sparse]. *)
From Verif Require Import Base Num.

Section Sparse.
Context (N : Num) (cols : Z) (tableSize : nat).
Notation F := (F N).

(** ElementStorage.h:70-77 [HashItem]: key, val.  The constructor sets key = -1 and leaves val
    uninitialised; [None] is that state (val is never read while key = -1). *)
Notation item := (option (Z * F)).
(** the table and the static member outOfMemory (zero-initialised, shared by all matrices of the type) *)
Record sparse := Sp { table : list item; outOfMemory : F }.
Definition sparse_init : sparse := Sp (repeat None tableSize) (fZ N 0).

(** ElementStorage.h:82-85: key = row * cols + col; hash = key % tableSize *)
Definition key_of (row col : Z) : Z := row * cols + col.
Definition slot_of (key : Z) (i : nat) : nat := Z.to_nat ((Z.rem key (Z.of_nat tableSize) + Z.of_nat i) mod Z.of_nat tableSize).

(** ElementStorage.h:90-108: the loop over i; result: table and the slot of the item found (None when
    the loop ends without break). *)
Fixpoint probe (t : list item) (key : Z) (is : list nat) : list item * option nat :=
  match is with
  | [] => (t, None)
  | i :: is =>
      let s := slot_of key i in
      let free := match nth s t None with None => true | Some (_, val) => feq N val (fZ N 0) end in
      if free then (match upd t s (Some (key, fZ N 0)) with Some t' => t' | None => t end, Some s)
      else match nth s t None with
           | Some (k, _) => if k =? key then (t, Some s) else probe t key is
           | None => probe t key is
           end
  end.
(** ElementStorage.h:79-119 [operator()]: a reference, to the item's val or to outOfMemory (None). *)
Definition access (s : sparse) (key : Z) : sparse * option nat :=
  let '(t, r) := probe (table s) key (seq 0 tableSize) in (Sp t (outOfMemory s), r).
(** reading and writing through the reference *)
Definition sread (s : sparse) (row col : Z) : sparse * F :=
  let '(s, r) := access s (key_of row col) in
  (s, match r with
      | Some k => match nth k (table s) None with Some (_, v) => v | None => fZ N 0 end
      | None => outOfMemory s
      end).
Definition swrite (s : sparse) (row col : Z) (v : F) : sparse :=
  let key := key_of row col in
  let '(s, r) := access s key in
  match r with
  | Some k => Sp (match upd (table s) k (Some (key, v)) with Some t => t | None => table s end) (outOfMemory s)
  | None => Sp (table s) v
  end.

(** a history of element accesses of one matrix, and the values read *)
Inductive sop := SWrite (row col : Z) (v : F) | SRead (row col : Z).
Fixpoint srun (s : sparse) (ops : list sop) : list F :=
  match ops with
  | [] => []
  | SWrite r c v :: ops => srun (swrite s r c v) ops
  | SRead r c :: ops => let '(s, v) := sread s r c in v :: srun s ops
  end.
End Sparse.
Arguments SWrite {N}. Arguments SRead {N}. Arguments Sp {N}. Arguments table {N}. Arguments outOfMemory {N}.
