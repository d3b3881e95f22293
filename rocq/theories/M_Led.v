(** Model of class LEDManager (lib/ledmanager/src/ledmanager.cpp, ledmanager.h). *)
From Verif Require Import Base.

(** ledmanager.h:10-20 *)
Inductive led_mode := OFF | ON | BLINK_10HZ | BLINK_1HZ | FLASH_4X_EVERY_5S | FLASH_2X_EVERY_5S | FLASH_1X_EVERY_5S | READY.

(** ledmanager.cpp:15-116 [update]: the level written to the pin, [None] if it is not written (READY).
    [micros] is the value of the uint32_t argument. *)
Definition led_update (mode : led_mode) (micros : Z) : option bool :=
  let millis := micros / 1000 in
  match mode with
  | OFF => Some false
  | ON => Some true
  | BLINK_10HZ => if millis mod 100 <? 50 then Some true else Some false
  | BLINK_1HZ => if millis mod 1000 <? 500 then Some true else Some false
  | FLASH_1X_EVERY_5S =>
      let seq := millis mod 5000 in if seq <? 4990 then Some false else Some true
  | FLASH_4X_EVERY_5S =>
      let seq := millis mod 5000 in
      if seq <? 3750 then Some false else if seq <? 3800 then Some true
      else if seq <? 4150 then Some false else if seq <? 4200 then Some true
      else if seq <? 4550 then Some false else if seq <? 4600 then Some true
      else if seq <? 4950 then Some false else Some true
  | FLASH_2X_EVERY_5S =>
      let seq := millis mod 5000 in
      if seq <? 4550 then Some false else if seq <? 4600 then Some true
      else if seq <? 4950 then Some false else Some true
  | READY => None
  end.
