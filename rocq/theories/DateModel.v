(** Model of the serial date conversions, rsciio/utils/_date_time.py.

    Floating point numbers (IEEE double, round to nearest even) are represented exactly as
    integers counting units of 2^-200.  Every number in this code has an absolute value
    that is 0 or at least 2^-100 and below 2^100, so no subnormal number, overflow or
    infinity occurs. *)
From Verif Require Import Base.

Definition scale : Z := 200.
Definition one : Z := 2 ^ scale.

(** Nearest integer to a/b, halves to even. *)
Definition round_half_even (a b : Z) : Z :=
  let q := a / b in
  let r := a mod b in
  if 2 * r <? b then q else if b <? 2 * r then q + 1 else if Z.even q then q else q + 1.

(** The double nearest to num/den, for num >= 0 and den > 0. *)
Definition rn_pos (num den : Z) : Z :=
  let l := Z.log2 ((num * one) / den) in
  let quantum := 2 ^ Z.max 0 (l - 52) in
  quantum * round_half_even (num * one) (den * quantum).

Definition rn (num den : Z) : Z := if num <? 0 then - rn_pos (- num) den else rn_pos num den.

Definition fadd (x y : Z) : Z := rn (x + y) one.
Definition fmul_int (x n : Z) : Z := rn (x * n) one.

(** [x % 1.0] in Python: C fmod (exact), then 1.0 is added when the result is negative. *)
Definition mod_one (x : Z) : Z :=
  let m := Z.rem x one in if m <? 0 then fadd m one else m.

(** [_date_time.py:53-59] datetime_to_serial_date.  A date-time is the number of
    microseconds since the origin 1899-12-30 UTC (a naive one is taken as UTC, line
    55-56); [delta.days] and [delta.seconds] are the floor components of timedelta, and
    the microseconds are dropped. *)
Definition us_per_day : Z := 86400000000.
Definition datetime_to_serial_date (us : Z) : Z :=
  let days := us / us_per_day in
  let seconds := (us mod us_per_day) / 1000000 in
  fadd (days * one) (rn seconds 86400).

(** [timedelta(days, seconds)] with an integer and a float argument, in microseconds:
    CPython splits the float into its integer part and fraction, multiplies the fraction
    by 10^6 in floating point and rounds the result to the nearest microsecond, halves to
    even (Modules/_datetimemodule.c, accum). *)
Definition timedelta (days secs : Z) : Z :=
  let ip := Z.quot secs one in
  let us := fmul_int (Z.rem secs one) 1000000 in
  days * us_per_day + ip * 1000000 + round_half_even us one.

(** [_date_time.py:62-68] serial_date_to_datetime, as microseconds since the origin. *)
Definition serial_date_to_datetime (serial : Z) : Z :=
  let secs := fmul_int (mod_one serial) 86400 in
  timedelta (Z.quot serial one) secs.
