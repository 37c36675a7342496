(** External functions left abstract (oracles), and the time helpers of
    /repo generator/static/tpl/valyjson_utils.go.tpl built on them.
    Every theorem quantifies over all [ext]; laws that a theorem needs are
    hypotheses of that theorem. *)
From Coq Require Import List Ascii String ZArith NArith Bool.
From Coq Require Import Floats.SpecFloat.
From Verif Require Import Base Types.
Import ListNotations.
Local Open Scope list_scope.

Record ext := mkExt {
  (** fastjson Value.Float64 on the raw number text *)
  x_pf : bytes -> option spec_float;
  (** jwriter Float64: strconv.AppendFloat(_, f, 'g', -1, 64) *)
  x_ff : spec_float -> bytes;
  (** time.Parse(layout, s) *)
  x_pt : bytes -> bytes -> option gtime;
  (** t.Format(layout) *)
  x_ft : bytes -> gtime -> bytes;
  (** t.MarshalText() ([None]: year out of range) *)
  x_tt : gtime -> option bytes
}.

Definition RFC3339 : bytes := $"2006-01-02T15:04:05Z07:00".
Definition RFC3339Nano : bytes := $"2006-01-02T15:04:05.999999999Z07:00".

(** First layout of the list that parses. *)
Fixpoint first_format (X : ext) (ls : list bytes) (s : bytes) : option gtime :=
  match ls with
  | [] => None
  | l :: ls' => match x_pt X l s with Some t => Some t | None => first_format X ls' s end
  end.

Definition datetime_formats : list bytes :=
  [RFC3339Nano; RFC3339; $"2006-01-02 15:04:05Z07:00"; $"02.01.2006 15:04:05Z07:00"].

(** parseDateTime, utils.go.tpl:54-67 *)
Definition parseDateTime (X : ext) (s : bytes) : option gtime :=
  first_format X datetime_formats s.

Definition date_formats : list bytes :=
  [RFC3339Nano; RFC3339; $"2006-01-02"; $"02.01.2006"].

Definition day_ns : Z := 86400000000000.

(** Time.Truncate(24 * time.Hour): rounds down since the zero time, keeps the zone. *)
Definition truncate_day (t : gtime) : gtime :=
  mkTime (tm_ns t - tm_ns t mod day_ns)%Z (tm_off t).

(** parseDate, utils.go.tpl:69-82 *)
Definition parseDate (X : ext) (s : bytes) : option gtime :=
  match first_format X date_formats s with
  | Some t => Some (truncate_day t)
  | None => None
  end.

(** The text written by writeTime, utils.go.tpl:84-90: no JSON escaping. *)
Definition quoted (s : bytes) : bytes := """"%char :: s ++ $"""".

(** Constants of package time that a layout tag may name ("time.X"). *)
Definition time_consts : list (bytes * bytes) :=
  [ ($"Layout", $"01/02 03:04:05PM '06 -0700");
    ($"ANSIC", $"Mon Jan _2 15:04:05 2006");
    ($"UnixDate", $"Mon Jan _2 15:04:05 MST 2006");
    ($"RubyDate", $"Mon Jan 02 15:04:05 -0700 2006");
    ($"RFC822", $"02 Jan 06 15:04 MST");
    ($"RFC822Z", $"02 Jan 06 15:04 -0700");
    ($"RFC850", $"Monday, 02-Jan-06 15:04:05 MST");
    ($"RFC1123", $"Mon, 02 Jan 2006 15:04:05 MST");
    ($"RFC1123Z", $"Mon, 02 Jan 2006 15:04:05 -0700");
    ($"RFC3339", RFC3339);
    ($"RFC3339Nano", RFC3339Nano);
    ($"Kitchen", $"3:04PM");
    ($"Stamp", $"Jan _2 15:04:05");
    ($"StampMilli", $"Jan _2 15:04:05.000");
    ($"StampMicro", $"Jan _2 15:04:05.000000");
    ($"StampNano", $"Jan _2 15:04:05.000000000");
    ($"DateTime", $"2006-01-02 15:04:05");
    ($"DateOnly", $"2006-01-02");
    ($"TimeOnly", $"15:04:05") ].

(** Does the text contain a dot? *)
Definition has_dot (s : bytes) : bool := existsb (Ascii.eqb "."%char) s.

(** Layout the decoder passes to time.Parse, extractors.go:320-328: "time.X" with no
    further dot is the package constant, anything else is the text itself. [None]: the
    named constant does not exist, so the generated code does not compile. *)
Definition dec_layout (l : bytes) : option bytes :=
  if beq (firstn 5 l) $"time." && negb (has_dot (skipn 5 l))
  then assoc (skipn 5 l) time_consts
  else Some l.

(** Layout the encoder passes to writeTime, marshalers.go:55-59: the text of the tag. *)
Definition enc_layout (l : bytes) : bytes :=
  match l with [] => RFC3339Nano | _ => l end.

(** Layout used by the generator for the zero date, marshalers.go:78-81. *)
Definition zero_layout (l : bytes) : bytes :=
  match l with [] => RFC3339 | _ => l end.
