(** Model of the Bluetooth callback and the main loop running at the same time.
    BluetoothSerial calls the onData callback from its own FreeRTOS task, so that its statements can fall between
    any two statements of loop().  Both use the global txBuffer.  Modelled are the two statements of each side that
    matter: "n = nexstar.handleRequest(...)" (fills txBuffer) and "write(txBuffer, n)" (sends it); each is taken
    to be atomic, which makes fewer behaviours possible than the real program has. *)
From Verif Require Import Base Num M_Libc M_Linalg M_Helper M_Alignment M_Telescope M_Gnss M_NexStar M_Main.

Inductive side := Tcp | Bt.
Section Race.
Context (N : Num) (T : Trig N) (pf : platform) (oor : conv_policy).
Context (qsort : list (vpair N) -> list (vpair N)) (m9 : res (F N)) (junk : option (F N * F N)).

(** Shared: telescope, GNSS data, txBuffer.  Per side: the request, and the local variable
    nexstarResponseLength once it is set. *)
Record both := Both {
  r_tel : telescope N; r_gnss : gnss N; r_tx : list Z;
  r_req : side -> list Z; r_len : side -> option Z; r_sent : list out }.
Definition set_len (f : side -> option Z) (s : side) (n : Z) : side -> option Z :=
  fun x => match x, s with Tcp, Tcp | Bt, Bt => Some n | _, _ => f x end.

(** main.cpp:493 (the whole of rxBuffer is passed) and main.cpp:203 *)
Definition fill (b : both) (s : side) : res both :=
  do '(n, tx, tel) <- handleRequest N T pf oor qsort m9 junk (r_tel b) (r_gnss b) (r_req b s) (Z.of_nat (length (r_req b s))) (r_tx b) 256;
  Ok (Both tel (r_gnss b) tx (r_req b) (set_len (r_len b) s n) (r_sent b)).
(** main.cpp:495-497 and main.cpp:204-206 *)
Definition send (b : both) (s : side) (n : Z) : both :=
  if 0 <? n then
    Both (r_tel b) (r_gnss b) (r_tx b) (r_req b) (r_len b)
      (r_sent b ++ [match s with Tcp => TcpOut (firstn (Z.to_nat n) (r_tx b)) | Bt => BtOut (firstn (Z.to_nat n) (r_tx b)) end])
  else b.
(** the next statement of side [s] *)
Definition advance (b : both) (s : side) : res both :=
  match r_len b s with None => fill b s | Some n => Ok (send b s n) end.
Fixpoint interleaved (b : both) (schedule : list side) : res both :=
  match schedule with [] => Ok b | s :: schedule => do b <- advance b s; interleaved b schedule end.
Definition start (tel : telescope N) (g : gnss N) (tx rx req : list Z) : both :=
  Both tel g tx (fun s => match s with Tcp => rx | Bt => req end) (fun _ => None) [].
End Race.
Arguments r_tel {N}. Arguments r_gnss {N}. Arguments r_tx {N}. Arguments r_req {N}. Arguments r_len {N}. Arguments r_sent {N}.
