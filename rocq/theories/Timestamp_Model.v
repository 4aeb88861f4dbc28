(** Model of src/timestamp.h: calendar and time-of-day decomposition, comparisons. *)

From Coq Require Import ZArith Bool.
From Verif Require Import Base.
Open Scope Z_scope.

(** src/timestamp.h:109-112, 183-220, 291-302: C++ integer division and remainder truncate toward zero. *)
Definition cdiv (a b : Z) : Z := Z.quot a b.
(** src/timestamp.h:109-112, 183-220, 291-302 *)
Definition cmod (a b : Z) : Z := Z.rem a b.

(** src/timestamp.h:33-73: constants. *)
Definition nanosecond_count : Z := 1000000000.
(** src/timestamp.h:33-73 *)
Definition microsecond_count : Z := 1000000.
(** src/timestamp.h:33-73 *)
Definition millisecond_count : Z := 1000.
(** src/timestamp.h:33-73 *)
Definition second_count : Z := 60.
(** src/timestamp.h:33-73 *)
Definition minute_count : Z := 60.
(** src/timestamp.h:33-73 *)
Definition hour_count : Z := 24.
(** src/timestamp.h:33-73 *)
Definition max_month : Z := 12.
(** src/timestamp.h:33-73 *)
Definition nanoseconds_per_day : Z := nanosecond_count * second_count * minute_count * hour_count.
(** src/timestamp.h:33-73 *)
Definition days_per_1_year : Z := 365.
(** src/timestamp.h:33-73 *)
Definition days_per_1_year_leap : Z := days_per_1_year + 1.
(** src/timestamp.h:33-73 *)
Definition days_per_4_years : Z := 3 * days_per_1_year + days_per_1_year_leap.
(** src/timestamp.h:33-73 *)
Definition days_per_100_years_leap : Z := 25 * days_per_4_years.
(** src/timestamp.h:33-73 *)
Definition days_per_100_years : Z := days_per_100_years_leap - 1.
(** src/timestamp.h:33-73 *)
Definition days_per_400_years : Z := days_per_100_years_leap + 3 * days_per_100_years.

(** The members of timestamp (src/i/timestamp.i.h:215-228). *)
Record timestamp := {
  days_since_epoch : Z;             (* int32 *)
  nanoseconds_since_midnight : Z;   (* int64 *)
  year : Z; month : Z; day : Z;     (* int16 *)
  hours : Z; minutes : Z; seconds : Z; milliseconds : Z;  (* int16 *)
  microseconds : Z; nanoseconds : Z (* int32 *)
}.

(** src/i/timestamp.i.h:215-228: The by-reference variables of reset_date. *)
Record dvars := { v_year : Z; v_month : Z; v_day : Z; v_rem : Z }.

(** src/timestamp.h:308-325: either the date is done, or move to the next month. *)
Definition reset_date_if_done (v : dvars) (days_in_1_month : Z) : dvars * bool :=
  if v_rem v <? days_in_1_month then
    ({| v_year := v_year v; v_month := v_month v; v_day := v_day v + v_rem v; v_rem := v_rem v |}, true)
  else
    let m := v_month v + 1 in
    let '(y, m) := if max_month <? m then (v_year v + 1, 1) else (v_year v, m) in
    ({| v_year := y; v_month := m; v_day := v_day v; v_rem := v_rem v - days_in_1_month |}, false).

(** The chain of month tests (src/timestamp.h:225-283, and 169-177).  [None] =
    fell through all of them. *)
Fixpoint months (v : dvars) (l : list Z) : dvars * bool :=
  match l with
  | nil => (v, false)
  | cons k l' => let '(v', b) := reset_date_if_done v k in if b then (v', true) else months v' l'
  end.

(** src/timestamp.h:181-221: reduce to a year starting on Mar 1. *)
Definition reduce_years (v : dvars) : dvars :=
  let y := v_year v in let r := v_rem v in
  (* 182-185 *)
  let '(y, r) := if days_per_400_years <=? r
                 then (y + 400 * cdiv r days_per_400_years, cmod r days_per_400_years) else (y, r) in
  (* 188-191 *)
  let '(y, r) := if days_per_100_years_leap <=? r
                 then (y + 100, r - days_per_100_years_leap) else (y, r) in
  (* 195-197 *)
  let r := if days_per_100_years <=? r then r + cdiv r days_per_100_years else r in
  (* 200-203 *)
  let '(y, r) := if days_per_4_years <=? r
                 then (y + 4 * cdiv r days_per_4_years, cmod r days_per_4_years) else (y, r) in
  (* 206-209 *)
  let '(y, r) := if days_per_1_year <=? r then (y + 1, r - days_per_1_year) else (y, r) in
  (* 212-215 *)
  let '(y, r) := if days_per_1_year_leap <=? r then (y + 1, r - days_per_1_year_leap) else (y, r) in
  (* 218-221 *)
  let '(y, r) := if days_per_1_year <=? r
                 then (y + cdiv r days_per_1_year, cmod r days_per_1_year) else (y, r) in
  {| v_year := y; v_month := v_month v; v_day := v_day v; v_rem := r |}.

(** src/timestamp.h:158-286.  The second component is [false] when the function
    falls off its end without setting the date (line 285).  The int32
    intermediates cannot overflow for days that come from a 64-bit nanosecond
    count; the stored parts are int16 (lines 329-335). *)
Definition reset_date (days : Z) : (Z * Z * Z) * bool :=
  let v := {| v_year := 1970; v_month := 1; v_day := 1; v_rem := days |} in
  let '(v, b) := months v (cons 31 (cons 28 nil)) in
  let '(v, b) :=
    if b then (v, true)
    else months (reduce_years v)
           (cons 31 (cons 30 (cons 31 (cons 30 (cons 31 (cons 31 (cons 30 (cons 31 (cons 30 (cons 31 (cons 31 (cons 29 nil)))))))))))) in
  ((wrap_s16 (v_year v), wrap_s16 (v_month v), wrap_s16 (v_day v)), b).

(** src/timestamp.h:107-114 together with 158-286, 289-305, 328-348. *)
Definition reset (nanoseconds_since_epoch : Z) : timestamp :=
  let days := wrap_s32 (cdiv nanoseconds_since_epoch nanoseconds_per_day) in        (* 109 *)
  let '((y, m, d), _) := reset_date days in                                          (* 110 *)
  let since_midnight := cmod nanoseconds_since_epoch nanoseconds_per_day in          (* 112 *)
  let r := cmod since_midnight nanoseconds_per_day in                                (* 291 *)
  let ns := cmod r nanosecond_count in let r := cdiv r nanosecond_count in           (* 293-294 *)
  let s := cmod r second_count in let r := cdiv r second_count in                    (* 296-297 *)
  let mi := cmod r minute_count in let r := cdiv r minute_count in                   (* 299-300 *)
  let h := cmod r hour_count in                                                      (* 302 *)
  {| days_since_epoch := days;
     nanoseconds_since_midnight := since_midnight;
     year := y; month := m; day := d;
     hours := wrap_s16 h; minutes := wrap_s16 mi; seconds := wrap_s16 s;
     milliseconds := wrap_s16 (cdiv ns microsecond_count);                           (* 345 *)
     microseconds := wrap_s32 (cdiv ns millisecond_count);                           (* 346 *)
     nanoseconds := wrap_s32 ns |}.

(** src/timestamp.h:117-121 *)
Definition ts_eq (a b : timestamp) : bool :=
  (days_since_epoch a =? days_since_epoch b) && (nanoseconds_since_midnight a =? nanoseconds_since_midnight b).
(** src/timestamp.h:124-127 *)
Definition ts_ne (a b : timestamp) : bool := negb (ts_eq a b).
(** src/timestamp.h:130-135 *)
Definition ts_gt (a b : timestamp) : bool :=
  (days_since_epoch b <? days_since_epoch a)
  || ((days_since_epoch a =? days_since_epoch b) && (nanoseconds_since_midnight b <? nanoseconds_since_midnight a)).
(** src/timestamp.h:138-143 *)
Definition ts_ge (a b : timestamp) : bool :=
  (days_since_epoch b <? days_since_epoch a)
  || ((days_since_epoch a =? days_since_epoch b) && (nanoseconds_since_midnight b <=? nanoseconds_since_midnight a)).
(** src/timestamp.h:146-149 *)
Definition ts_lt (a b : timestamp) : bool := negb (ts_ge a b).
(** src/timestamp.h:152-155 *)
Definition ts_le (a b : timestamp) : bool := negb (ts_gt a b).
