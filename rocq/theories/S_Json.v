(** Small specification: the JSON grammar of RFC 8259 over byte values (independent of the model). *)
From Verif Require Import Base.

Definition is_ws (c : Z) : Prop := c = 32 \/ c = 9 \/ c = 10 \/ c = 13.
Definition ws (l : list Z) : Prop := Forall is_ws l.
Definition is_digit (c : Z) : Prop := 48 <= c <= 57.
Definition digits (l : list Z) : Prop := l <> [] /\ Forall is_digit l.
(** int = "0" or a digit 1..9 followed by digits *)
Definition j_int (l : list Z) : Prop := l = [48] \/ (digits l /\ hd 48 l <> 48).
Definition j_frac (l : list Z) : Prop := l = [] \/ exists d, digits d /\ l = 46 :: d.
Definition j_exp (l : list Z) : Prop :=
  l = [] \/ exists e s d, (e = 101 \/ e = 69) /\ (s = [] \/ s = [43] \/ s = [45]) /\ digits d /\ l = e :: s ++ d.
Definition j_number (l : list Z) : Prop :=
  exists s i f e, (s = [] \/ s = [45]) /\ j_int i /\ j_frac f /\ j_exp e /\ l = s ++ i ++ f ++ e.
(** characters of a string: anything but ", \ and control characters; or \ followed by one of "\/bfnrt or u and 4 hex digits *)
Definition is_hex (c : Z) : Prop := 48 <= c <= 57 \/ 65 <= c <= 70 \/ 97 <= c <= 102.
Inductive j_chars : list Z -> Prop :=
| jc_nil : j_chars []
| jc_plain c l : 32 <= c -> c <> 34 -> c <> 92 -> j_chars l -> j_chars (c :: l)
| jc_esc c l : In c [34; 92; 47; 98; 102; 110; 114; 116] -> j_chars l -> j_chars (92 :: c :: l)
| jc_hex a b c d l : is_hex a -> is_hex b -> is_hex c -> is_hex d -> j_chars l -> j_chars (92 :: 117 :: a :: b :: c :: d :: l).
Definition j_string (l : list Z) : Prop := exists c, j_chars c /\ l = 34 :: c ++ [34].
(** 91 = [, 93 = ], 123 = {, 125 = }, 44 = comma, 58 = colon *)
Inductive j_value : list Z -> Prop :=
| j_literal l : In l [[116; 114; 117; 101]; [102; 97; 108; 115; 101]; [110; 117; 108; 108]] -> j_value l
| j_num l : j_number l -> j_value l
| j_str l : j_string l -> j_value l
| j_array0 w : ws w -> j_value (91 :: w ++ [93])
| j_array l : j_elements l -> j_value (91 :: l ++ [93])
| j_object0 w : ws w -> j_value (123 :: w ++ [125])
| j_object l : j_members l -> j_value (123 :: l ++ [125])
with j_elements : list Z -> Prop :=
| je_one a v b : ws a -> j_value v -> ws b -> j_elements (a ++ v ++ b)
| je_more a v b l : ws a -> j_value v -> ws b -> j_elements l -> j_elements (a ++ v ++ b ++ 44 :: l)
with j_members : list Z -> Prop :=
| jm_one a k b c v e : ws a -> j_string k -> ws b -> ws c -> j_value v -> ws e -> j_members (a ++ k ++ b ++ 58 :: c ++ v ++ e)
| jm_more a k b c v e l : ws a -> j_string k -> ws b -> ws c -> j_value v -> ws e -> j_members l ->
    j_members (a ++ k ++ b ++ 58 :: c ++ v ++ e ++ 44 :: l).
(** a JSON text *)
Definition json (l : list Z) : Prop := exists a v b, ws a /\ j_value v /\ ws b /\ l = a ++ v ++ b.
