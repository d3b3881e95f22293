(** Model of the Python server (python-server/server.py:15-38, MyTCPHandler.handle). *)
From Verif Require Import Base Num.

(** bytes.strip(): ASCII whitespace (space, \t, \n, \v, \f, \r) removed at both ends *)
Definition is_space (c : Z) : bool := (c =? 32) || ((9 <=? c) && (c <=? 13)).
Fixpoint lstrip (l : list Z) : list Z :=
  match l with c :: r => if is_space c then lstrip r else l | [] => [] end.
Definition strip (l : list Z) : list Z := rev (lstrip (rev (lstrip l))).

(** struct.unpack('<hhqIi', data): exactly 20 bytes, else struct.error *)
Definition u_at (l : list Z) (k n : nat) : Z := fold_right (fun b acc => b + 256 * acc) 0 (firstn n (skipn k l)).
Definition signed (bits x : Z) : Z := if x <? 2 ^ (bits - 1) then x else x - 2 ^ bits.
Definition unpack_hhqIi (l : list Z) : option (Z * Z * Z * Z * Z) :=
  if (length l =? 20)%nat
  then Some (signed 16 (u_at l 0 2), signed 16 (u_at l 2 2), signed 64 (u_at l 4 8), u_at l 12 4, signed 32 (u_at l 16 4))
  else None.

Section Py.
(** [N]: Python floats; [valid_time us]: datetime.fromtimestamp(us/1000/1000) does not raise *)
Context (N : Num) (valid_time : Z -> bool).
Record py_message := PyMsg { py_length : Z; py_type : Z; py_time : Z; py_ra_h : F N; py_dec : F N }.
Inductive py_result := Decoded (m : py_message) | TooShort | Raised.
(** server.py:17-38.  [received]: what the single recv(1024) returned (at most 1024 bytes). *)
Definition py_handle (received : list Z) : py_result :=
  let data := strip received in
  if 20 <=? Z.of_nat (length data) then
    match unpack_hhqIi data with
    | None => Raised
    | Some (l, t, us, r, d) =>
        if valid_time us then
          Decoded (PyMsg l t us (fdiv N (fZ N r) (fdiv N (fZ N 0x80000000) (fZ N 12)))
                            (fdiv N (fZ N d) (fdiv N (fZ N 0x40000000) (fZ N 90))))
        else Raised
    end
  else TooShort.
End Py.
