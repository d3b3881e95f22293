(** What the outside world must respect for the device to stay memory safe. *)
From Verif Require Import Base Num M_Libc M_Linalg M_Helper M_Alignment S_Alignment M_Telescope M_Stellarium M_Gnss P_Gnss2 M_NexStar S_NexStar M_Led M_Imu M_Main P_Sched P_Main2 P_Publish.
Open Scope Z_scope.
Notation length := List.length.

Section Spec.
Context (N : Num) (T : Trig N) (pf : platform) (oor : conv_policy) (lc : libc N).
Context (qsort : list (vpair N) -> list (vpair N)) (x : F N) (j : F N * F N).
Context (ftext : nat -> F N -> list Z) (left_first : bool) (cfg : config).
Notation dev := (dev N). Notation env := (env N). Notation event := (event N).
Notation step := (M_Main.step N T pf oor lc qsort (Ok x) (Some j) ftext left_first cfg).
Notation points_text := (points_text N ftext).

(** there is room for the triangles when the orientation p is added *)
Definition room (a : align N) (p : point N) : Prop :=
  (length (stored a) <= 2)%nat \/
  (forall r b a', addVertexPair N qsort a p r = Ok (b, a') -> stored a' <> [] -> exists ts, triangulate N (Some j) (map actual (stored a')) = Ok ts).
(** where the tube points when the 100 ms task looks at the packet *)
Definition pass_orientation (d : dev) (e : env) (p : F N) : point N :=
  Pt (f32 N (fadd N (filter_heading N (d_heading d) (heading_raw N left_first e)) (fZ N 0))) p.

(** enough fields behind the header the parser finds *)
Definition enough_fields (s : list Z) : Prop :=
  (forall pos, find_sub RMC_HEADER s = Some pos -> (9 <= commas (skipn (pos + 6) s))%nat) /\
  (forall pos, find_sub GGA_HEADER s = Some pos -> (9 <= commas (skipn (pos + 6) s))%nat) /\
  (forall pos, find_sub GSV_HEADER s = Some pos -> (3 <= commas (skipn (pos + 6) s))%nat).
(** [e] is the start of the received bytes or a line feed in them; '$' is looked for from [e] on, the line feed behind [e] *)
Definition serial_ok (bytes : list Z) : Prop :=
  forall e st en, (e = 0%nat \/ nth_error bytes e = Some 10) -> find_from 36 bytes e = Some st -> find_from 10 bytes (e + 1) = Some en ->
    enough_fields (substr bytes st en).
Definition shown (a : align N) : list (vpair N) := firstn (Z.to_nat (numVertices a)) (verts a).
(** A Bluetooth request has at least eight bytes or is a known one; a sync has room for its triangles; serial
    lines have enough fields; the published point lists fit the transmit buffer. *)
Definition safe_event (d : dev) (ev : event) : Prop :=
  match ev with
  | Bluetooth req => ((8 <= length req)%nat \/ recognised req) /\ (is_sync req -> room (t_align (d_tel d)) (t_orient (d_tel d)))
  | Pass e =>
      match the_task N d e with
      | Task100ms => has_client d && e_up_read e = true -> 0 < received N e ->
          forall p, measure_pitch N T d = Ok p -> room (t_align (d_tel d)) (pass_orientation d e p)
      | Task500ms => serial_ok (firstn 255 (e_serial e)) /\
          (c_sensor cfg = true -> (length (points_text (map (fun v => actual v) (shown (t_align (d_tel d))))) <= 253)%nat /\
                                  (length (points_text (map (fun v => reference v) (shown (t_align (d_tel d))))) <= 253)%nat)
      | _ => True
      end
  end.
Inductive careful : dev -> list event -> Prop :=
| careful_nil d : careful d []
| careful_cons d ev evs : safe_event d ev -> (forall d' o, step d ev = Ok (d', o) -> careful d' evs) -> careful d (ev :: evs).
End Spec.
