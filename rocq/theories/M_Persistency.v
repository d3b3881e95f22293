(** Model of class Persistency (lib/persistency/src/persistency.cpp) over an abstract flash file system.
    Assumed of SPIFFS: opening for reading fails iff the file does not exist; opening for writing creates the
    file or cuts it to length 0, or fails without effect; a read or write transfers a prefix of what was asked
    for and returns its length; close writes nothing. *)
From Verif Require Import Base.
From Coq Require Import Strings.String.
Notation length := List.length.

Definition fs := string -> option (list Z).
Definition set_file (f : fs) (name : string) (content : list Z) : fs :=
  fun n => if String.eqb n name then Some content else f n.

(** *data = bytes *)
Definition copy_to (data bytes : list Z) : res (list Z) :=
  if (length bytes <=? length data)%nat then Ok (bytes ++ skipn (length bytes) data) else UB OobWrite.

(** persistency.cpp:8-25 [readBinaryData].  [data]: memory behind the pointer; [got]: number of bytes the
    flash delivers (at most length). *)
Definition readBinaryData (f : fs) (data : list Z) (len : nat) (name : string) (got : nat) : res (bool * list Z) :=
  match f name with
  | None => Ok (false, data)
  | Some content =>
      if (len <=? length content)%nat then
        let bytes := Nat.min got len in
        do data <- copy_to data (firstn bytes content);
        Ok ((bytes =? len)%nat, data)
      else Ok (false, data)
  end.

(** persistency.cpp:27-45 [writeBinaryData].  [opened]: the file could be opened; [put]: number of bytes the
    flash accepts.  Result: return value and the states the file system goes through, oldest first. *)
Definition writeBinaryData (f : fs) (data : list Z) (len : nat) (name : string) (opened : bool) (put : nat)
  : res (bool * list fs) :=
  if opened then
    if (len <=? length data)%nat then
      let bytes := Nat.min put len in
      Ok ((bytes =? len)%nat, f :: map (fun k => set_file f name (firstn k data)) (seq 0 (S bytes)))
    else UB OobRead
  else Ok (false, [f]).
Definition final (states : list fs) (f : fs) : fs := List.last states f.
