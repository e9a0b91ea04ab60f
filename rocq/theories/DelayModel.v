(** Delay.h with Arduino/Delay_Arduino.h or AVR/Delay_Avr.h: blocking delays, in cycles of the processor.
    Below them: delay, micros and delayMicroseconds as in the Arduino core for AVR at 16 MHz, and _delay_ms and
    _delay_us as in avr-libc. *)
Require Import ZArith List Bool.
Import ListNotations.
From Verif Require Import Base RealModel.
Open Scope Z_scope.

(** ** Arduino/Delay_Arduino.h 54-57: delayMicroseconds takes an unsigned int, 16 bits on AVR.
    [short], [long]: the cycles of the call besides the loop.  Interrupts make it longer. *)
Definition wait_us (short long timeout : Z) : Z :=
  let us := u16 timeout in
  if us <=? 1 then short
  else
    let us := u16 (Z.shiftl us 2) in
    let us := u16 (us - 5) in
    long + 4 * us.

(** ** Arduino/Delay_Arduino.h 38-41: delay.  micros() counts in steps of 4 microseconds, which is 64 cycles. *)
Definition micros (cycle : Z) : Z := u32 (4 * (cycle / 64)).
(** The loop: [polls] are the cycles at which it reads micros(); the answer is the one after which it ends. *)
Fixpoint delay_loop (ms start : Z) (polls : list Z) : option Z :=
  match polls with
  | [] => None
  | c :: rest =>
      if u32 (micros c - start) >=? 1000
      then if ms - 1 =? 0 then Some c else delay_loop (ms - 1) (u32 (start + 1000)) rest
      else delay_loop ms start rest
  end.
Definition wait_ms (timeout now : Z) (polls : list Z) : option Z :=
  let ms := u32 timeout in
  if ms =? 0 then Some now else delay_loop ms (micros now) polls.

(** ** AVR/Delay_Avr.h 40-43 and 56-59: _delay_ms and _delay_us take a double (32 bits), computed by the compiler;
    [per] is 1000 or 1000000, [f_cpu] the clock in Hz.  None: the conversion to uint32_t is undefined. *)
Definition delay_ticks (f_cpu per timeout : Z) : Z :=
  let rate := fl 24 (fl_int 24 149 f_cpu) per in
  let x := fl 24 (rate * fl_int 24 149 (u32 timeout)) (2 ^ 149) in
  - ((- x) / 2 ^ 149).
Definition delay_cycles (f_cpu per timeout : Z) : option Z :=
  let ticks := delay_ticks f_cpu per timeout in
  if 4294967296 <=? ticks then None else Some ticks.
