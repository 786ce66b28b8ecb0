(** File times, from stat(2) to a snapshot and back to utimensat(2):
    src/tree.rs:228-252 [get_metadata], src/ui/restore.rs:282-288 [to_timespec].
    How a snapshot stores them is in Formats.v ([c_instant]). *)

From Verif Require Import Base.

Definition billion : Z := 1000000000.

(** A [timespec]: seconds since 1970, and nanoseconds after that. stat(2) gives nanoseconds from
    0 to 999999999, also before 1970. *)
Record timespec := mkTime { tv_sec : Z; tv_nsec : Z }.

(** crate jiff: [Timestamp::new] fails outside the years -9999 to 9999, [unwrap]ped in
    src/tree.rs:241-242. A timestamp is the nanoseconds since 1970. *)
Definition timestamp_new (t : timespec) : result Z :=
  if bool_decide (-377705023201 <= tv_sec t <= 253402207200)%Z then Ok (tv_sec t * billion + tv_nsec t)%Z else Panic.

(** src/ui/restore.rs:283-288; crate jiff: [as_second] cuts off the fraction, so rounds
    toward 1970, and [subsec_nanosecond] is that fraction, negative before 1970. *)
Definition to_timespec (t : Z) : timespec := mkTime (Z.quot t billion) (Z.rem t billion).

(** utimensat(2): EINVAL unless the nanoseconds are 0 to 999999999 (the special values for
    "now" and "leave it" are greater). *)
Definition utimens_takes (t : timespec) : bool := bool_decide (0 <= tv_nsec t < billion)%Z.
