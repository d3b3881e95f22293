(** Specification: the NexStar requests the firmware is documented to answer, as byte strings.
    35 is '#', 44 is ','. *)
From Verif Require Import Base Num M_Helper M_Gnss M_Alignment M_Telescope.

Section Spec.
Context {N : Num} (t : telescope N) (g : gnss N).
(** Fixed replies: request bytes (anything may follow) and reply bytes. *)
Inductive answers : list Z -> list Z -> Prop :=
| A_echo c r : answers (75 :: c :: r) [c; 35]                                       (* K c *)
| A_version r : answers (86 :: r) [4; 10; 35]                                       (* V *)
| A_device d r : In d [0x10; 0x11; 0xb0; 0xb2] ->
    answers (80 :: 1 :: d :: 0xfe :: 0 :: 0 :: 0 :: 2 :: r) [1; 0; 35]               (* P ... *)
| A_model r : answers (109 :: r) [12; 35]                                           (* m *)
| A_goto r : answers (76 :: r) [0; 35]                                              (* L *)
| A_aligned r : answers (74 :: r) [if t_cal t then 1 else 0; 35]                    (* J *)
| A_tracking r : answers (116 :: r) [1; 35]                                         (* t *)
| A_time r : let u := g_time g in
    answers (104 :: r) [u8 (tm_hour u); u8 (tm_min u); u8 (tm_sec u); u8 (tm_mon u); u8 (tm_mday u);
                        u8 (tm_year u - 2000); 0; 0; 35].                           (* h *)
End Spec.

(** 's' and at least 17 further bytes *)
Definition is_sync (req : list Z) : Prop := exists r, req = 115 :: r /\ (17 <= length r)%nat.
(** 'w' location, 'e' position *)
Definition asks (letter : Z) (req : list Z) : Prop := exists r, req = letter :: r.
(** everything the firmware answers *)
Definition recognised (req : list Z) : Prop :=
  (exists c r, req = 75 :: c :: r) \/
  (exists l r, In l [86; 109; 119; 101; 104; 76; 74; 116] /\ req = l :: r) \/
  (exists d r, In d [0x10; 0x11; 0xb0; 0xb2] /\ req = 80 :: 1 :: d :: 0xfe :: 0 :: 0 :: 0 :: 2 :: r) \/
  is_sync req.

(** The memory behind a pointer after [text] and a NUL were written to its start. *)
Definition written (text resp : list Z) : list Z := text ++ 0 :: skipn (S (length text)) resp.

(** [l] spells the 32-bit value [w] as eight hex digits, upper or lower case. *)
Definition hex_char (d c : Z) : Prop := (d < 10 /\ c = 48 + d) \/ (10 <= d /\ c = 65 + (d - 10)) \/ (10 <= d /\ c = 97 + (d - 10)).
Definition spells (w : Z) (l : list Z) : Prop :=
  Forall2 hex_char [w / 16 ^ 7 mod 16; w / 16 ^ 6 mod 16; w / 16 ^ 5 mod 16; w / 16 ^ 4 mod 16;
                    w / 16 ^ 3 mod 16; w / 16 ^ 2 mod 16; w / 16 mod 16; w mod 16] l.
(** the same in upper case only *)
Definition hex_upper (w : Z) : list Z :=
  map (fun d => if d <? 10 then 48 + d else 65 + (d - 10))
      [w / 16 ^ 7 mod 16; w / 16 ^ 6 mod 16; w / 16 ^ 5 mod 16; w / 16 ^ 4 mod 16;
       w / 16 ^ 3 mod 16; w / 16 ^ 2 mod 16; w / 16 mod 16; w mod 16].
(** requests and replies of the position protocol *)
Definition sync_request (f1 : list Z) (sep : Z) (f2 : list Z) (rest : list Z) : list Z := 115 :: f1 ++ sep :: f2 ++ rest.
Definition position_reply (w1 w2 : Z) : list Z := hex_upper w1 ++ [44] ++ hex_upper w2 ++ [35].
Definition word (w : Z) : Prop := 0 <= w < 4294967296.
