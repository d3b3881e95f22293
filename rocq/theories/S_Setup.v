(** What start-up should do, in terms of what the outside sees. *)
From Verif Require Import Base M_Led M_Main M_Setup.
Open Scope Z_scope.

(** The configured Wi-Fi network was found in time: it answered at one of the first six questions (at 0, 1, ... 5 s)
    and again when asked immediately afterwards; or it answered at the seventh question, right after the sixth. *)
Definition found_in_time (connected : nat -> bool) : Prop :=
  (exists k, (k <= 5)%nat /\ (forall j, (j < k)%nat -> connected j = false) /\ connected k = true /\ connected (S k) = true) \/
  ((forall j, (j <= 5)%nat -> connected j = false) /\ connected 6%nat = true).
(** a connection, once there, lasts *)
Definition lasting (connected : nat -> bool) : Prop := forall k, connected k = true -> connected (S k) = true.

(** time spent in delay() *)
Definition waited (l : list act) : Z := fold_right (fun a s => match a with Delay ms => ms + s | _ => s end) 0 l.
Definition act_eq_dec : forall x y : act, {x = y} + {x <> y}.
Proof. repeat decide equality. Defined.
Definition times (a : act) (l : list act) : nat := count_occ act_eq_dec l a.
(** n times if b, else never *)
Definition once_if (b : bool) : nat := if b then 1%nat else 0%nat.

(** The service an output of the device belongs to. *)
Inductive service := TcpService | BluetoothService | RemoteMqtt | LocalBroker | LedService.
Definition service_of (o : out) : service :=
  match o with
  | TcpOut _ | Accepted _ | Rejected _ => TcpService
  | BtOut _ => BluetoothService
  | MqttOut _ _ | MqttConnect => RemoteMqtt
  | BrokerOut _ _ => LocalBroker
  | LedOut _ => LedService
  end.
