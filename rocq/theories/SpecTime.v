(** * SpecTime: the Gregorian calendar and the time format of the three protocols, independent of
    how a time is computed. *)
From Verif Require Import Base.

(** A year divisible by 4 has a 29th of February, unless it is divisible by 100 and not by 400. *)
Definition leap (y : Z) : Prop := (4 | y) /\ (~ (100 | y) \/ (400 | y)).
Definition leapb (y : Z) : bool := (y mod 4 =? 0) && (negb (y mod 100 =? 0) || (y mod 400 =? 0)).
(** Month lengths, and the months before one. *)
Definition months (y : Z) : list Z :=
  [31; if leapb y then 29 else 28; 31; 30; 31; 30; 31; 31; 30; 31; 30; 31].
Definition sum (l : list Z) : Z := fold_right Z.add 0 l.
(** Days before the first of January of [y], counted from that of the year 1. *)
Definition before_year (y : Z) : Z := 365 * (y - 1) + (y - 1) / 4 - (y - 1) / 100 + (y - 1) / 400.
Definition day_number (y m d : Z) : Z := before_year y + sum (firstn (Z.to_nat (m - 1)) (months y)) + (d - 1).
Definition date_ok (y m d : Z) : Prop := 1 <= m <= 12 /\ 1 <= d <= nth (Z.to_nat (m - 1)) (months y) 0.

(** The instant, in seconds since 1970-01-01 00:00:00 UTC, at which clocks [east] seconds east of
    UTC show this date and time. *)
Definition instant (y m d hh mm ss east : Z) : Z :=
  86400 * (day_number y m d - day_number 1970 1 1) + 3600 * hh + 60 * mm + ss - east.

(** The time format (SMPP 3.3 7.1.1): YYMMDDhhmmss, tenths of a second, the difference to UTC in
    quarters of an hour, and + for clocks ahead of UTC, - for clocks behind.  The years are those
    of the 21st century. *)
Definition num2 (a b : Z) : option Z :=
  if (48 <=? a) && (a <=? 57) && (48 <=? b) && (b <=? 57) then Some (10 * (a - 48) + (b - 48)) else None.
Definition time_read (s : bytes) : option Z :=
  match s with
  | [y1; y2; o1; o2; d1; d2; h1; h2; m1; m2; s1; s2; t; n1; n2; p] =>
    match num2 y1 y2, num2 o1 o2, num2 d1 d2, num2 h1 h2, num2 m1 m2, num2 s1 s2, num2 n1 n2 with
    | Some y, Some o, Some d, Some h, Some m, Some sec, Some n =>
      if p =? 43 then Some (instant (2000 + y) o d h m sec (900 * n))
      else if p =? 45 then Some (instant (2000 + y) o d h m sec (- (900 * n))) else None
    | _, _, _, _, _, _, _ => None
    end
  | _ => None
  end.
