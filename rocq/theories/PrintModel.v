(** The numbers that the summary line of a table shows: the time with its unit, ppi and cpi. *)
From Coq Require Import NArith ZArith List String.
From Verif Require Import Words HashTableModel F64.
Open Scope string_scope.
Open Scope N_scope.

(** hashtable.go:288-300 [cvt], local to [Print]: the number and its unit. *)
Definition cvt (t : f64) : f64 * string :=
  if fltb t (fofZ 1) then
    let t := fmul t (fofZ 1000) in
    if fltb t (fofZ 1) then (fmul t (fofZ 1000), "us") else (t, "ms")
  else (t, "s").

(** hashtable.go:303 [s.Dur.Seconds()]: [d] is the time.Duration, in nanoseconds.  Not code of the
    repository: package time divides the nanoseconds by 1e9 (here); older releases multiplied
    them by the constant 1e-9 before ([seconds_mul]).  Both are kept since the repository does not
    fix the release. *)
Definition seconds_div (d : Z) : f64 :=
  fadd (fofZ (Z.quot d 1000000000)) (fdiv (fofZ (Z.rem d 1000000000)) (fofZ 1000000000)).
(** hashtable.go:303, see above; the constant 1e-9 is the float64 nearest to it. *)
Definition seconds_mul (d : Z) : f64 :=
  fadd (fofZ (Z.quot d 1000000000)) (fmul (fofZ (Z.rem d 1000000000)) (fdiv (fofZ 1) (fofZ 1000000000))).
(** hashtable.go:303: the number and the unit after "time=". *)
Definition shown_time (seconds : Z -> f64) (d : Z) : f64 * string := cvt (seconds d).

(** hashtable.go:312: the number after "cpi=", a percentage (open addressing only). *)
Definition shown_cpi (t : table) : f64 :=
  fmul (fdiv (fofZ (Z.of_N (cols (st t)))) (fofZ (Z.of_N (inserts (st t))))) (fofZ 100).
(** hashtable.go:312: the number after "ppi=" (open addressing only). *)
Definition shown_ppi (t : table) : f64 :=
  fdiv (fofZ (Z.of_N (probes (st t)))) (fofZ (Z.of_N (inserts (st t)))).
