(** The parts of CPython and of python/dlisio/ext/core.cpp that decide how text
    and dates reach the user. *)
From Verif Require Import Bytes DlisTypes Stream.
Local Open Scope Z_scope.

(** ** UTF-8 *)

(** CPython's strict UTF-8 decoder (PyUnicode_FromString, py::str): decodes the
    well-formed sequences of the Unicode standard, table 3-7, and fails on all
    others.  External; modelled from its documentation.  [utf8 s] is the list of
    code points. *)
Definition cont (b : byte) : bool := (128 <=? b2z b) && (b2z b <=? 191).
Definition between (lo : Z) (b : byte) (hi : Z) : bool := (lo <=? b2z b) && (b2z b <=? hi).
Fixpoint utf8 (s : bytes) : option (list Z) :=
  match s with
  | [] => Some []
  | a :: s1 =>
      if b2z a <=? 127 then do t <- utf8 s1; Some (b2z a :: t)
      else match s1 with
      | [] => None
      | b :: s2 =>
          if between 0xC2 a 0xDF && cont b then
            do t <- utf8 s2; Some ((b2z a - 192) * 64 + (b2z b - 128) :: t)
          else match s2 with
          | [] => None
          | c :: s3 =>
              if cont c &&
                 ((b2z a =? 0xE0) && between 0xA0 b 0xBF
                  || between 0xE1 a 0xEC && cont b
                  || (b2z a =? 0xED) && between 0x80 b 0x9F
                  || between 0xEE a 0xEF && cont b) then
                do t <- utf8 s3;
                Some ((b2z a - 224) * 4096 + (b2z b - 128) * 64 + (b2z c - 128) :: t)
              else match s3 with
              | [] => None
              | d :: s4 =>
                  if cont c && cont d &&
                     ((b2z a =? 0xF0) && between 0x90 b 0xBF
                      || between 0xF1 a 0xF3 && cont b
                      || (b2z a =? 0xF4) && between 0x80 b 0x8F) then
                    do t <- utf8 s4;
                    Some ((b2z a - 240) * 262144 + (b2z b - 128) * 4096 + (b2z c - 128) * 64
                          + (b2z d - 128) :: t)
                  else None
              end
          end
      end
  end.

(** ** datetime *)

(** datetime.h (CPython): is_leap, days_in_month, check_date_args,
    check_time_args *)
Definition is_leap (y : Z) : bool :=
  (y mod 4 =? 0) && (negb (y mod 100 =? 0) || (y mod 400 =? 0)).
Definition days_in_month (y m : Z) : Z :=
  if m =? 2 then (if is_leap y then 29 else 28)
  else if (m =? 4) || (m =? 6) || (m =? 9) || (m =? 11) then 30 else 31.
Record datetime := mk_datetime {
  py_year : Z; py_month : Z; py_day : Z; py_hour : Z; py_minute : Z; py_second : Z; py_us : Z }.
Definition valid_datetime (t : datetime) : bool :=
  (1 <=? py_year t) && (py_year t <=? 9999)
  && (1 <=? py_month t) && (py_month t <=? 12)
  && (1 <=? py_day t) && (py_day t <=? days_in_month (py_year t) (py_month t))
  && (0 <=? py_hour t) && (py_hour t <=? 23)
  && (0 <=? py_minute t) && (py_minute t <=? 59)
  && (0 <=? py_second t) && (py_second t <=? 59)
  && (0 <=? py_us t) && (py_us t <=? 999999).

(** python/dlisio/ext/dlis.cpp 36-43 (to_pydatetime); None is the ValueError.
    The time zone is dropped. *)
Definition to_pydatetime (t : dtime) : option datetime :=
  let p := mk_datetime (dlis_year (dt_Y t)) (dt_M t) (dt_D t) (dt_H t) (dt_MN t) (dt_S t)
                       (dt_MS t * 1000) in
  if valid_datetime p then Some p else None.
