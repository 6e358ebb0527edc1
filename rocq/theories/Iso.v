(* Model of the expiry options of manifest_writer: from the text of an option
   to the expiry time in the packets.  datetime.fromisoformat is that of
   CPython 3.12 (Modules/_datetimemodule.c, parse_isoformat_date,
   parse_isoformat_time) on texts of the form the help of the options gives,
   YYYY-MM-DD with or without a time of day HH:MM:SS, a fraction and an offset
   Z or +HH:MM.  What it makes of other texts (among them 24:00:00, which
   depends on the version) is the parameter [other]; the timestamp of a
   datetime without offset, which depends on the time zone of the machine, is
   the parameter [local]. *)
From Coq Require Import ZArith List Bool.
From Verif Require Import Py Tlv Float Core Uri.
Import ListNotations.
Open Scope Z_scope.

(* the datetime object of apps/manifest_writer.py:92; the offset is in seconds *)
Record dtime := mkDT
  { dt_year : Z; dt_month : Z; dt_day : Z; dt_hour : Z; dt_min : Z; dt_sec : Z; dt_us : Z;
    dt_off : option Z }.

(* ---------------- datetime.fromisoformat, called in apps/manifest_writer.py:92 ---------------- *)

(* _datetimemodule.c parse_digits *)
Definition is_digit (c : Z) : bool := (48 <=? c) && (c <=? 57).
Fixpoint digits (n : nat) (acc : Z) (t : text) : option (Z * text) :=
  match n, t with
  | O, _ => Some (acc, t)
  | S n, c :: t => if is_digit c then digits n (acc * 10 + (c - 48)) t else None
  | S _, [] => None
  end.
(* the separators compared with in parse_isoformat_date and parse_hh_mm_ss_ff *)
Definition lit (c : Z) (t : text) : option text :=
  match t with x :: t => if x =? c then Some t else None | [] => None end.
(* their error returns *)
Definition obind {A B} (m : option A) (k : A -> option B) : option B :=
  match m with Some a => k a | None => None end.
(* a separator and digits *)
Definition then_digits (c : Z) (n : nat) (t : text) : option (Z * text) :=
  obind (lit c t) (digits n 0).

(* the digits of a fraction *)
Fixpoint span_digits (t : text) : text * text :=
  match t with
  | c :: t' => if is_digit c then let (a, r) := span_digits t' in (c :: a, r) else ([], t)
  | [] => ([], [])
  end.
(* parse_hh_mm_ss_ff: microseconds from the first six digits, as many zeros
   added as are missing; further digits are skipped *)
Fixpoint micros (n : nat) (acc : Z) (ds : text) : Z :=
  match n, ds with
  | O, _ => acc
  | S n, [] => micros n (acc * 10) []
  | S n, c :: ds => micros n (acc * 10 + (c - 48)) ds
  end.
Definition fraction (t : text) : option (Z * text) :=
  match t with
  | c :: t' =>
    if (c =? 46) || (c =? 44) then
      match span_digits t' with
      | ([], _) => None
      | (ds, r) => Some (micros 6 0 ds, r)
      end
    else Some (0, t)
  | [] => Some (0, t)
  end.
(* parse_isoformat_time: Z or the sign, hours and minutes of an offset *)
Definition zone (t : text) : option (option Z) :=
  match t with
  | [] => Some None
  | [90] => Some (Some 0)
  | c :: t =>
    if (c =? 43) || (c =? 45) then
      obind (digits 2 0 t) (fun '(h, t) =>
      obind (then_digits 58 2 t) (fun '(m, t) =>
      match t with
      | [] => Some (Some ((if c =? 45 then -1 else 1) * (h * 3600 + m * 60)))
      | _ => None
      end))
    else None
  end.
(* the fields of a text of the form above, not yet checked *)
Definition iso_fields (t : text) : option dtime :=
  obind (digits 4 0 t) (fun '(y, t) =>
  obind (then_digits 45 2 t) (fun '(mo, t) =>
  obind (then_digits 45 2 t) (fun '(d, t) =>
  match t with
  | [] => Some (mkDT y mo d 0 0 0 0 None)
  | _ :: t =>
    obind (digits 2 0 t) (fun '(h, t) =>
    obind (then_digits 58 2 t) (fun '(mi, t) =>
    obind (then_digits 58 2 t) (fun '(s, t) =>
    obind (fraction t) (fun '(us, t) =>
    obind (zone t) (fun z =>
    if h =? 24 then None else Some (mkDT y mo d h mi s us z))))))
  end))).

(* _datetimemodule.c is_leap, days_in_month, days_before_month,
   days_before_year, ymd_to_ord *)
Definition is_leap (y : Z) : bool := (y mod 4 =? 0) && (negb (y mod 100 =? 0) || (y mod 400 =? 0)).
Definition month_days : list Z := [31; 28; 31; 30; 31; 30; 31; 31; 30; 31; 30; 31].
Definition days_in_month (y m : Z) : Z :=
  if (m =? 2) && is_leap y then 29 else nth (Z.to_nat (m - 1)) month_days 0.
Definition month_starts : list Z := [0; 31; 59; 90; 120; 151; 181; 212; 243; 273; 304; 334].
Definition days_before_month (y m : Z) : Z :=
  nth (Z.to_nat (m - 1)) month_starts 0 + (if (2 <? m) && is_leap y then 1 else 0).
Definition days_before_year (y : Z) : Z :=
  let z := y - 1 in z * 365 + z / 4 - z / 100 + z / 400.
Definition ymd_to_ord (y m d : Z) : Z := days_before_year y + days_before_month y m + d.

(* check_date_args, check_time_args; new_timezone: an offset is less than a day *)
Definition dt_check (x : dtime) : bool :=
  (1 <=? dt_year x) && (dt_year x <=? 9999) && (1 <=? dt_month x) && (dt_month x <=? 12) &&
  (1 <=? dt_day x) && (dt_day x <=? days_in_month (dt_year x) (dt_month x)) &&
  (dt_hour x <=? 23) && (dt_min x <=? 59) && (dt_sec x <=? 59) &&
  match dt_off x with Some o => (-86400 <? o) && (o <? 86400) | None => true end.

Section Time.
Variable other : text -> res dtime.
Variable local : dtime -> res (bool * fl).

(* datetime_fromisoformat *)
Definition from_iso (t : text) : res dtime :=
  match iso_fields t with
  | Some x => if dt_check x then Ok x else Err ValueError
  | None => other t
  end.

(* ---------------- timestamps ---------------- *)

(* A timestamp is a float with its sign: true is negative.  The day number of
   1970-01-01 (PyDateTime_Epoch) *)
Definition EPOCH : Z := 719163.
(* microseconds since 1970-01-01T00:00:00+00:00 *)
Definition dt_micros (x : dtime) (off : Z) : Z :=
  ((ymd_to_ord (dt_year x) (dt_month x) (dt_day x) - EPOCH) * 86400 +
   dt_hour x * 3600 + dt_min x * 60 + dt_sec x - off) * 1000000 + dt_us x.
(* datetime.timestamp(): the difference to the epoch in microseconds divided by
   10**6, a true division of ints (delta_total_seconds) *)
Definition dt_timestamp (x : dtime) : res (bool * fl) :=
  match dt_off x with
  | None => local x
  | Some o => let u := dt_micros x o in Ok (u <? 0, int_truediv (Z.abs u) 1000000)
  end.
(* round(t, 3): the float nearest to the multiple of 1/1000 nearest to the
   exact value of t, ties to even (Objects/floatobject.c double_round, which
   goes through a correctly rounded decimal text) *)
Definition round3 (f : fl) : fl := fl_round (rne (fl_num f * 1000) (fl_den f)) 1000.
(* core/Timestamp.py:29-31 from_datetime, core/ExpiryTime.py:26-30 *)
Definition from_datetime (x : dtime) : res (bool * fl) :=
  t <- dt_timestamp x ;; Ok (fst t, round3 (snd t)).
(* core/Timestamp.py:33-40, 73-79 with the sign: int() truncates to zero *)
Definition signed_tlv (t : bool * fl) : res tlv :=
  m <- ts_msec (snd t) ;; create_uint64 T_EXPIRY (if fst t then - m else m).
(* apps/manifest_writer.py:81-92 _parse_time.  The result is the ExpiryTime
   object, i.e. its timestamp and its TLV. *)
Definition parse_time (v : option text) : res (option (bool * fl * tlv)) :=
  match v with
  | None => Ok None
  | Some t => x <- from_iso t ;; f <- from_datetime x ;; w <- signed_tlv f ;; Ok (Some (f, w))
  end.
End Time.
