(** What a history of the device asks of its alignment, independent of the tasks and buffers. *)
From Verif Require Import Base Num M_Linalg M_Helper M_Alignment S_Alignment M_Telescope M_Gnss S_NexStar S_Stellarium.
Open Scope Z_scope.

Section Spec.
Context (N : Num) (T : Trig N).

(** The two things a user can do with the alignment of the device. *)
Inductive command :=
| Sync (orientation : point N) (right_ascension declination : F N) (g : gnss N)
    (* the tube points to [orientation] and the user says it is at these coordinates; [g]: place and time *)
| Reset.

(** The direction of the given equatorial coordinates at that place and time. *)
Definition direction (r d : F N) (g : gnss N) : point N :=
  let h := equatorialToHorizontal N T r d (g_latitude g) (getLocalSiderealTimeDegrees N (g_time g) (g_longitude g)) in
  Pt (az h) (alt h).

(** ... and what that means for the Alignment object. *)
Definition orders (c : command) : list (op N) :=
  match c with
  | Sync p r d g => [Add p (direction r d g); Triangulate]
  | Reset => [Clear]
  end.
Definition all_orders (cs : list command) : list (op N) := flat_map orders cs.

(** The coordinates named by a NexStar sync request with two well-formed fields. *)
Definition sync_says (req : list Z) (r d : F N) : Prop :=
  forall w1 w2 f1 f2 sep rest, word w1 -> word w2 -> spells w1 f1 -> spells w2 f2 -> req = sync_request f1 sep f2 rest ->
    let angle w := fdiv N (fmul N (fZ N w) (fZ N 360)) (fZ N 4294967296) in
    r = angle w1 /\ d = (if flt N (fZ N 270) (angle w2) then fsub N (angle w2) (fZ N 360) else angle w2).
(** A Stellarium message of which [n] bytes were received, and its coordinates. *)
Definition is_goto (data : list Z) (n : Z) : Prop := 20 <= field 0 2 data /\ field 0 2 data <= n /\ field 2 2 data = 0.
Definition goto_says (data : list Z) (r d : F N) : Prop :=
  let angle w := fmul N (fdiv N (fZ N w) (fZ N 2147483648)) (fZ N 180) in
  r = angle (field 12 4 data) /\ d = angle (field 16 4 data).
(** A TCP packet: [data] is the receive buffer, [n] the number of bytes just received.
    NexStar requests come first; what is none of them may be a Stellarium message. *)
Definition packet_orders (data : list Z) (n : Z) (r d : F N) : Prop :=
  (is_sync data /\ sync_says data r d) \/
  (~ recognised data /\ (bytes_ok data -> is_goto data n /\ goto_says data r d)).
Definition packet_empty (data : list Z) (n : Z) : Prop :=
  ~ is_sync data /\ (bytes_ok data -> ~ (~ recognised data /\ is_goto data n)).
End Spec.
Arguments Sync {N}. Arguments Reset {N}.
