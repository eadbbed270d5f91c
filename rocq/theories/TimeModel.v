(** * TimeModel: calendar time as the library writes it.

    utils.Now (utils/utils.go:22-26), FormatTime (utils/utils.go:33-36) and the option MtAtTime
    (codec/options_mt.go:83-88) over Go's time.Format.  An instant is a number of nanoseconds
    since 1970-01-01 00:00:00 UTC, any integer.  The zone a time is shown in is any function from
    seconds to the offset east of UTC in seconds (a zone database with its changes of clock). *)
From Verif Require Import Base UtilsModel OptionsModel SeqModel.

(** Go's time package, isLeap. *)
Definition isLeap (y : Z) : bool := (y mod 4 =? 0) && (negb (y mod 100 =? 0) || (y mod 400 =? 0)).
(** time.daysBefore: days before each month of a common year. *)
Definition daysBefore (m : Z) : Z :=
  nth (Z.to_nat m) [0; 31; 59; 90; 120; 151; 181; 212; 243; 273; 304; 334; 365] 0.
(** time.absDate: year, month and day of month of the day [d], counted from the first of January
    of the year 1.  (Go counts from the year -292277022399; both years are 1 modulo 400, and the
    difference is a whole number of 400-year cycles.)  [n >> 2] is [n / 4]. *)
Definition absDate (d : Z) : Z * Z * Z :=
  let n := d / 146097 in
  let y := 400 * n in
  let d := d - 146097 * n in
  let n := d / 36524 in
  let n := n - n / 4 in
  let y := y + 100 * n in
  let d := d - 36524 * n in
  let n := d / 1461 in
  let y := y + 4 * n in
  let d := d - 1461 * n in
  let n := d / 365 in
  let n := n - n / 4 in
  let y := y + n in
  let d := d - 365 * n in
  let year := y + 1 in
  if isLeap year && (d =? 59) then (year, 2, 29)
  else
    let day := if isLeap year && (59 <? d) then d - 1 else d in
    let month := day / 31 in
    let end_ := daysBefore (month + 1) in
    if end_ <=? day then (year, month + 2, day - end_ + 1)
    else (year, month + 1, day - daysBefore month + 1).

(** Days from the first of January of the year 1 to the first of January 1970. *)
Definition unix_day : Z := 719162.
Definition second_of (t : Z) : Z := t / 1000000000.
(** The clock reading in the zone: year, month, day, hour, minute, second. *)
Record civil := Civil { cv_year : Z; cv_month : Z; cv_day : Z; cv_hour : Z; cv_min : Z; cv_sec : Z }.
Definition civil_of (zone : Z -> Z) (t : Z) : civil :=
  let s := second_of t in
  let l := s + zone s in
  let '(y, m, d) := absDate (l / 86400 + unix_day) in
  let r := l mod 86400 in
  Civil y m d (r / 3600) (r mod 3600 / 60) (r mod 60).
(** time.appendInt(_, x, 2) for 0 <= x < 100. *)
Definition two (x : Z) : bytes := [48 + x / 10; 48 + x mod 10].
(** t.Format("060102150405"): the year without its century (a negative year is shown as 0). *)
Definition Format12 (zone : Z -> Z) (t : Z) : bytes :=
  let c := civil_of zone t in
  two (Z.max 0 (cv_year c) mod 100) ++ two (cv_month c) ++ two (cv_day c) ++ two (cv_hour c) ++ two (cv_min c) ++ two (cv_sec c).
(** t.Format("0102150405") *)
Definition Format10 (zone : Z -> Z) (t : Z) : bytes :=
  let c := civil_of zone t in
  two (cv_month c) ++ two (cv_day c) ++ two (cv_hour c) ++ two (cv_min c) ++ two (cv_sec c).
(** strconv.Atoi on a text of digits (an int holds every number of ten digits). *)
Definition Atoi (s : bytes) : Z := fold_left (fun v c => 10 * v + (c - 48)) s 0.

(** utils/utils.go:22-26 Now; the second result is a uint32. *)
Definition Now (zone : Z -> Z) (t : Z) : bytes * Z := let s := Format10 zone t in (s, u32 (Atoi s)).
(** utils/utils.go:33-36 FormatTime *)
Definition FormatTime (zone : Z -> Z) (t : Z) : bytes := Format12 zone t ++ sfx_032.
(** codec/options_mt.go:83-88 MtAtTime: [zone] is the location [t] carries. *)
Definition MtAtTime (zone : Z -> Z) (t : Z) : mtopt := OAtTime (Format12 zone t).
(** codec/cmpp/submit.go:532-533, codec/sgip/submit.go:249-250: the end of validity when no option
    sets it; [dur] is ac.MtValidDuration in nanoseconds. *)
Definition valid_until (zone : Z -> Z) (now dur : Z) : bytes := FormatTime zone (now + dur).
(** codec/smgp/submit.go:390-395: the sum of line 393 is dropped. *)
Definition smgp_valid_until (zone : Z -> Z) (now dur : Z) : bytes := FormatTime zone now.

(** t.Format("01021504") *)
Definition Format8 (zone : Z -> Z) (t : Z) : bytes :=
  let c := civil_of zone t in two (cv_month c) ++ two (cv_day c) ++ two (cv_hour c) ++ two (cv_min c).
(** utils/bcd_sequence.go:37-53 NextVal called at the given instants, in order. *)
Fixpoint bcd_at (zone : Z -> Z) (s : bcdseq) (ts : list Z) : res (list bytes) :=
  match ts with
  | [] => Ok []
  | t :: rest =>
    '(s', v) <- bcd_next s (Format8 zone t) ;;
    r <- bcd_at zone s' rest ;;
    Ok (v :: r)
  end.

(** utils/snowflake32/snowflake32.go:89-92 passedSeconds *)
Definition passedSeconds (zone : Z -> Z) (t : Z) : Z := let c := civil_of zone t in cv_hour c * 3600 + cv_min c * 60 + cv_sec c.
