(** Time.v - model of the clock text of /repo/log.c:39-61 and /repo/wayuu_log.c:59-72. *)
From Verif Require Export CLib.

(** ** The C library's calendar *)

(** struct tm, the fields that are used.  tm_mon counts from 0, tm_year from 1900. *)
Record tm := mkTm { tm_sec : Z; tm_min : Z; tm_hour : Z; tm_mday : Z; tm_mon : Z; tm_year : Z }.

(** The Gregorian date (year, month from 1, day) of a day counted from 1 January 1970: years begin
    in March, 146097 days make an era of 400 years. *)
Definition civil (days : Z) : Z * Z * Z :=
  let z := days + 719468 in
  let era := z / 146097 in
  let doe := z mod 146097 in
  let yoe := (doe - doe / 1460 + doe / 36524 - doe / 146096) / 365 in
  let doy := doe - (365 * yoe + yoe / 4 - yoe / 100) in
  let mp := (5 * doy + 2) / 153 in
  let d := doy - (153 * mp + 2) / 5 + 1 in
  let m := if mp <? 10 then mp + 3 else mp - 9 in
  (yoe + era * 400 + (if m <=? 2 then 1 else 0), m, d).

(** gmtime(3): None is NULL, when the year does not fit in an int. *)
Definition gmtime (t : Z) : option tm :=
  let '(y, m, d) := civil (t / 86400) in
  let s := t mod 86400 in
  if (- 2 ^ 31 <=? y - 1900) && (y - 1900 <? 2 ^ 31) then
    Some (mkTm (s mod 60) (s / 60 mod 60) (s / 3600) d (m - 1) (y - 1900))
  else None.

(** Two digits: %d %m %y %H %M %S of strftime(3). *)
Definition two (n : Z) : str := (if n <? 10 then L "0" else []) ++ dec_nat n.
(** %b in the C locale. *)
Definition month_name (mon : Z) : str :=
  nth (Z.to_nat mon) [L "Jan"; L "Feb"; L "Mar"; L "Apr"; L "May"; L "Jun"; L "Jul"; L "Aug"; L "Sep"; L "Oct"; L "Nov"; L "Dec"] (L "?").

(** strftime writes nothing it has no room for (then the array is indeterminate, and its use as a
    string undefined); 64 bytes, log.c:46 and 59. *)
Definition strftime64 (s : str) : outcome str := if len s + 1 <=? 64 then Ok s else UB UninitRead.

(** The two formats, for a struct tm.  Simplification: %Y and %y are modelled for years from 0 on.  %z of a struct tm
    made by gmtime is +0000. *)
Definition stamp_of (x : tm) : str :=
  two (tm_mday x) ++ L "-" ++ two (tm_mon x + 1) ++ L "-" ++ two (tm_year x mod 100) ++ L " "
  ++ two (tm_hour x) ++ L ":" ++ two (tm_min x) ++ L ":" ++ two (tm_sec x).
Definition common_of (x : tm) : str :=
  two (tm_mday x) ++ L "/" ++ month_name (tm_mon x) ++ L "/" ++ dec (tm_year x + 1900) ++ L ":"
  ++ two (tm_hour x) ++ L ":" ++ two (tm_min x) ++ L ":" ++ two (tm_sec x) ++ L " " ++ L "+0000".

(** format_timestamp - log.c:39-48; [t] is what time() returns.  strftime reads through the pointer
    that gmtime returned. *)
Definition format_timestamp (t : Z) : outcome str :=
  match gmtime t with None => UB NullDeref | Some x => strftime64 (stamp_of x) end.
(** format_ts_common_log - log.c:53-61 *)
Definition format_ts_common_log (t : Z) : outcome str :=
  match gmtime t with None => UB NullDeref | Some x => strftime64 (common_of x) end.

(** ** Milliseconds - wayuu_log.c:59-72 *)

(** epoch_millis: tv_sec and tv_usec of gettimeofday, as uint64_t. *)
Definition epoch_millis (sec usec : Z) : Z :=
  (sec mod 2 ^ 64 * 1000 + usec mod 2 ^ 64 / 1000) mod 2 ^ 64.

(** Nearest integer to p/q (q > 0), halves to even. *)
Definition nearest (p q : Z) : Z :=
  let n := p / q in
  let r := p mod q in
  if 2 * r <? q then n
  else if q <? 2 * r then n + 1
  else if Z.even n then n else n + 1.

(** A double that is not negative: d_num * 2^d_exp.  IEEE 754 binary64, 53 significant bits; the
    numbers below are far from the limits of the exponent. *)
Record double := mkDouble { d_num : Z; d_exp : Z }.
(** The double nearest to p/q, p >= 0 and q > 0. *)
Definition round_double (p q : Z) : double :=
  if p =? 0 then mkDouble 0 0
  else
    let k := Z.log2 p - Z.log2 q in                             (* 2^(k-1) < p/q < 2^(k+1) *)
    let below := if 0 <=? k then p <? q * 2 ^ k else p * 2 ^ (- k) <? q in
    let e := (if below then k - 1 else k) - 52 in
    mkDouble (if 0 <=? e then nearest p (q * 2 ^ e) else nearest (p * 2 ^ (- e)) q) e.
(** A double divided by an integer. *)
Definition div_double (x : double) (q : Z) : double :=
  if 0 <=? d_exp x then round_double (d_num x * 2 ^ d_exp x) q
  else round_double (d_num x) (q * 2 ^ (- d_exp x)).

(** response_time: the difference is a uint64_t. *)
Definition response_time (start now : Z) : double := div_double (round_double ((now - start) mod 2 ^ 64) 1) 1000.

(** printf("%.3f"): the exact value, rounded to thousandths, halves to even. *)
Definition print_f3 (x : double) : str :=
  let n := if 0 <=? d_exp x then d_num x * 2 ^ d_exp x * 1000 else nearest (d_num x * 1000) (2 ^ (- d_exp x)) in
  dec_nat (n / 1000) ++ L "." ++ (if n mod 1000 <? 100 then L "0" else []) ++ two (n mod 1000).

(** ** Calls of gmtime by several threads - log.c:45-46 and 58-59

    gmtime fills one static struct tm, which strftime then reads, without a lock in between.
    Fields are written and read one at a time, in the order second, minute, hour, day, month,
    year; the C library may use another order or write all fields at once.  Each call is one
    entry of [g_calls]; a thread that calls twice has two. *)
Record gcall := mkGcall { g_fields : list Z; g_pc : nat; g_seen : list Z }.
Record gstate := mkGstate { g_shared : list Z; g_calls : list gcall }.

Definition fields (x : tm) : list Z := [tm_sec x; tm_min x; tm_hour x; tm_mday x; tm_mon x; tm_year x].
Definition put {A} (l : list A) (k : nat) (x : A) : list A := firstn k l ++ x :: skipn (S k) l.

(** One step of call [k]: it writes field [g_pc], or after six writes reads field [g_pc - 6]. *)
Definition gstep (s : gstate) (k : nat) : option gstate :=
  match nth_error (g_calls s) k with
  | None => None
  | Some c =>
    if (g_pc c <? 6)%nat then
      match nth_error (g_fields c) (g_pc c) with
      | Some v => Some (mkGstate (put (g_shared s) (g_pc c) v) (put (g_calls s) k (mkGcall (g_fields c) (S (g_pc c)) (g_seen c))))
      | None => None
      end
    else if (g_pc c <? 12)%nat then
      match nth_error (g_shared s) (g_pc c - 6) with
      | Some v => Some (mkGstate (g_shared s) (put (g_calls s) k (mkGcall (g_fields c) (S (g_pc c)) (g_seen c ++ [v]))))
      | None => None
      end
    else None
  end.
Fixpoint grun (s : gstate) (sched : list nat) : option gstate :=
  match sched with
  | [] => Some s
  | k :: t => match gstep s k with None => None | Some s' => grun s' t end
  end.
(** The static struct tm starts as zeros. *)
Definition gstart (times : list tm) : gstate := mkGstate (repeat 0 6) (map (fun x => mkGcall (fields x) 0 []) times).
(** The struct tm a call of strftime saw. *)
Definition seen_tm (c : gcall) : option tm :=
  match g_seen c with [a; b; c; d; e; f] => Some (mkTm a b c d e f) | _ => None end.
