(** SpecTime.v - what the clock properties mean. *)
From Verif Require Import Base SpecHttp Spec.

(** ** The Gregorian calendar, one day after another *)
Record date := mkDate { d_year : Z; d_month : Z; d_day : Z }.
Definition leap (y : Z) : Prop := (4 | y) /\ (~ (100 | y) \/ (400 | y)).
Inductive month_length (y : Z) : Z -> Z -> Prop :=
| ml_31 : forall m, In m [1; 3; 5; 7; 8; 10; 12] -> month_length y m 31
| ml_30 : forall m, In m [4; 6; 9; 11] -> month_length y m 30
| ml_29 : leap y -> month_length y 2 29
| ml_28 : ~ leap y -> month_length y 2 28.
Inductive tomorrow : date -> date -> Prop :=
| to_day : forall y m d n, month_length y m n -> 1 <= d < n -> tomorrow (mkDate y m d) (mkDate y m (d + 1))
| to_month : forall y m n, month_length y m n -> m < 12 -> tomorrow (mkDate y m n) (mkDate y (m + 1) 1)
| to_year : forall y, tomorrow (mkDate y 12 31) (mkDate (y + 1) 1 1).
(** The date of a day counted from 1 January 1970. *)
Inductive on_day : Z -> date -> Prop :=
| od_epoch : on_day 0 (mkDate 1970 1 1)
| od_after : forall n x y, on_day n x -> tomorrow x y -> on_day (n + 1) y
| od_before : forall n x y, on_day n y -> tomorrow x y -> on_day (n - 1) x.

(** [t] seconds after the beginning of 1970 it is h:m:s on that date. *)
Definition clock (t : Z) (x : date) (h m s : Z) : Prop :=
  exists n, on_day n x /\ t = n * 86400 + h * 3600 + m * 60 + s /\ 0 <= h < 24 /\ 0 <= m < 60 /\ 0 <= s < 60.

(** ** Texts *)
Definition digit_of (c : ascii) (n : Z) : Prop := 0 <= n <= 9 /\ code c = 48 + n.
Definition two_digits (s : str) (n : Z) : Prop := exists a b x y, s = [a; b] /\ digit_of a x /\ digit_of b y /\ n = 10 * x + y.
Definition month_text (m : Z) (s : str) : Prop :=
  In (m, s) [(1, L "Jan"); (2, L "Feb"); (3, L "Mar"); (4, L "Apr"); (5, L "May"); (6, L "Jun");
             (7, L "Jul"); (8, L "Aug"); (9, L "Sep"); (10, L "Oct"); (11, L "Nov"); (12, L "Dec")].

(** 31-12-99 23:59:59, and 31/Dec/1999:23:59:59 +0000. *)
Definition stamp_text (x : date) (h m s : Z) (txt : str) : Prop :=
  exists dd mo yy hh mi ss, two_digits dd (d_day x) /\ two_digits mo (d_month x) /\ two_digits yy (d_year x mod 100)
    /\ two_digits hh h /\ two_digits mi m /\ two_digits ss s
    /\ txt = dd ++ L "-" ++ mo ++ L "-" ++ yy ++ L " " ++ hh ++ L ":" ++ mi ++ L ":" ++ ss.
Definition common_text (x : date) (h m s : Z) (txt : str) : Prop :=
  exists dd mo yy hh mi ss, two_digits dd (d_day x) /\ month_text (d_month x) mo /\ decimal yy (d_year x)
    /\ two_digits hh h /\ two_digits mi m /\ two_digits ss s
    /\ txt = dd ++ L "/" ++ mo ++ L "/" ++ yy ++ L ":" ++ hh ++ L ":" ++ mi ++ L ":" ++ ss ++ L " +0000".

(** A number of thousandths: integer part, point, three digits. *)
Definition thousandths (s : str) (n : Z) : Prop :=
  exists w a b c x y z, s = w ++ L "." ++ [a; b; c] /\ decimal w (n / 1000) /\ digit_of a x /\ digit_of b y /\ digit_of c z
    /\ n mod 1000 = 100 * x + 10 * y + z.

(** Rounding to the nearest, halves to even: n for p/q, and the double (IEEE 754 binary64)
    m * 2^e for p/q. *)
Definition rounded (p q n : Z) : Prop := 2 * Z.abs (p - n * q) <= q /\ (2 * Z.abs (p - n * q) = q -> Z.Even n).
Definition nearest_double (p q m e : Z) : Prop :=
  2 ^ 52 <= m <= 2 ^ 53 /\ (0 <= e -> rounded p (q * 2 ^ e) m) /\ (e < 0 -> rounded (p * 2 ^ (- e)) q m).
