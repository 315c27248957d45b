(** The command /repo/ht.go when it runs tests, as one program: what it prints, in order, while
    its tables, package hashf and the bucket count flag live on from test to test. *)
From Coq Require Import NArith ZArith List Bool String.
From Verif Require Import Words Mem KeccakModel HashfModel HashTableModel LiveModel LiveSpec HtModel TestMemModel.
Import ListNotations.
Open Scope N_scope.

(** What is printed.  The formats and the measured time are left out, also the lines that "-pd"
    and "-t" make [Insert] print (hashtable.go:171-187, 196-226; "-t" is in TraceModel.v).  The quality printed on a
    [Chained] line is computed from the lengths of the buckets (hashtable.go:263-285). *)
Inductive shown :=
| Here                                                   (* ht.go:933 *)
| ZeroHead                                               (* ht.go:714 *)
| TestHead (name desc : string)                          (* ht.go:721 *)
| FuncHead (name : string)                               (* ht.go:733 *)
| IntLine (n ni : Z)                                     (* ht.go:220, 293 *)
| EmptyLine                                              (* ht.go:368 *)
| KeyLine (seed : N) (key : list N) (h : N)              (* ht.go:366 *)
| Expected (q : Z)                                       (* ht.go:310 *)
| Hist (hist : list nat)                                 (* ht.go:311 *)
| SeedLine (seed : Z)                                    (* ht.go:736 *)
| Open (size inserts probes cols dups : N)               (* hashtable.go:310-312 *)
| Chained (size inserts heads new longest dups : N) (dups2 : nat) (lens : list nat).  (* hashtable.go:321-323 *)

(** A piece of the program: what it has printed when it ends, in one way or the other (ht.go:806-940). *)
Definition out (A : Type) : Type := list shown * res A.
Definition ret {A} (a : A) : out A := ([], Ok a).
Definition say (x : shown) : out unit := ([x], Ok tt).
Definition silent {A} (r : res A) : out A := ([], r).
Definition andthen {A B} (m : out A) (f : A -> out B) : out B :=
  let '(l, r) := m in
  match r with
  | Ok a => let '(l', r') := f a in (l ++ l', r')
  | Panics => (l, Panics) | Overread => (l, Overread) | NoFuel => (l, NoFuel)
  end.
Notation "x <<- e ;; k" := (andthen e (fun x => k)) (at level 61, e at next level, right associativity).
Notation "' pat <<- e ;; k" := (andthen e (fun x => match x with pat => k end))
  (at level 61, pat pattern, e at next level, right associativity).
(** A Go [for _, x := range l] with a state (ht.go:719, 722, 905, 916). *)
Fixpoint each {A S} (f : A -> S -> out S) (l : list A) (s : S) : out S :=
  match l with [] => ret s | x :: l => s <<- f x s ;; each f l s end.

(** [live_run] of LiveModel.v, keeping the results of the program's own calls of Hashf (clients
    of hashtable.go:138-259, hashf.go:57). *)
Fixpoint live_log (e : ext) (grow : nat -> nat -> nat) (name : string) (w : world) (own : list nat) (t : live) (ops : list lop)
    : res (world * live * list N) :=
  match ops with
  | [] => Ok (w, t, [])
  | LAlloc bs :: ops => live_log e grow name (withMem w (mem w ++ [bs])) (own ++ [length (mem w)]) t ops
  | LAssign a o bs :: ops => live_log e grow name (withMem w (store (mem w) (nth a own 0%nat) o bs)) own t ops
  | LHash other a o n seed :: ops =>
      '(w, h) <~ Hashf e grow w other (piece w (nth a own 0%nat) o n) seed ;;
      '(w, t, hs) <~ live_log e grow name w own t ops ;; Ok (w, t, h :: hs)
  | LInsert a o n :: ops =>
      '(w, t) <~ live_insert e grow name w t (piece w (nth a own 0%nat) o n) ;; live_log e grow name w own t ops
  end.

(** ht.go:97, 116, 129, ...: [ht.Insert([]byte(line))], an array for each key; [i] is the number
    of arrays made before. *)
Fixpoint fresh_ops (i : nat) (ks : list key) : list lop :=
  match ks with [] => [] | k :: ks => LAlloc k :: LInsert i 0 (length k) :: fresh_ops (S i) ks end.
(** ht.go:294, 302-307 [TestM]: the buffer and the loop. *)
Definition testM_ops (name : string) (seed : N) (ni : Z) : list lop :=
  LAlloc (repeat 0 4) ::
  flat_map (fun i => [LAssign 0 0 (int_key i); LHash name 0 0 4 seed]) (seq 0 (Z.to_nat ni)).
(** ht.go:305: one hash counted in the histogram. *)
Definition count_in (n : nat) (hist : list nat) (h : N) : list nat :=
  let j := N.to_nat (h mod N.of_nat n) in set_nth j (S (nth j hist 0%nat)) hist.

(** The flags that are not in [opts] of HtModel.v (ht.go:744-793): the table flags, "-ns", the
    global [seed] (755) with whether it is printed (736), "-0"; and the numbers that rbetween (348-356)
    draws, which depend on math/rand. *)
Record flags := mkFlags {
  f_cf : config; f_ns : Z; f_seed : Z; f_show : bool; f_zero : bool; f_draw : nat -> N }.
(** hashtable.go:106: [uint64(seed)]. *)
Definition seed64 (f : flags) : N := Z.to_N (f_seed f mod 2 ^ 64).
(** What lives on from test to test: memory and package hashf, the flag [*n] (ht.go:223, 296), the
    state of math/rand (372). *)
Record sess := mkSess { s_world : world; s_n : Z; s_draws : nat }.

(** hashtable.go:287-325 [Print] (called at ht.go:716, 738). *)
Definition print_table (m : heap) (t : live) (dups2 : nat) : shown :=
  let s := lst t in
  if loa t then Open (lsize t) (inserts s) (probes s) (cols s) (dups s)
  else Chained (lsize t) (inserts s) (heads s) (nbuckets s) (longest s) (dups s) dups2 (map (@length slice) (lbuckets t)).

(** ht.go:362-367 [hashLine], called for each line by ReadFile (373); [b] is the outer buffer,
    [r] how ReadFile ends. *)
Definition hash_line (e : ext) (grow : nat -> nat -> nat) (name : string) (b : slice) (rseed : N) (l : list N) (w : world) : out world :=
  '(w, h) <<- silent (Hashf e grow w name b rseed) ;;
  key <<- silent (hexToBytes l) ;;
  _ <<- say (KeyLine rseed key h) ;; ret w.
Definition hash_lines e grow name b rseed (ls : list (list N)) (r : res nat) (w : world) : out world :=
  w <<- each (hash_line e grow name b rseed) ls w ;; silent (_ <~ r ;; Ok w).

(** A new table and a program that fills it, ht.go:102-106, 207-212, 225-233 and alike; the state gets the bucket
    count [n]. *)
Definition fill (e : ext) (grow : nat -> nat -> nat) (np : N -> N) (f : flags) (name : string) (n sz : Z) (ops : list lop) (s : sess)
    : res (sess * live * list N) :=
  let t := live_new np sz (seed64 f) (cf_extra (f_cf f)) (cf_oa (f_cf f)) (cf_prime (f_cf f)) in
  '(w, t, hs) <~ live_log e grow name (s_world s) [] t ops ;; Ok (mkSess w n (s_draws s), t, hs).
(** The end of a test: the callee may still have panicked while reading (ht.go:37-74); Dups2 is 0. *)
Definition finish (r : res nat) (x : sess * live * list N) : res (sess * live * nat) :=
  _ <~ r ;; Ok (fst x, 0%nat).
(** ht.go:89-199: a test that reads a file. *)
Definition call_file e grow np f name (contents : option (list N)) (lines : Z) (key : list N -> HashTableModel.key) (s : sess)
    : out (sess * live * nat) :=
  let '(ls, r) := ReadFile contents in
  silent (x <~ fill e grow np f name (s_n s) lines (fresh_ops 0 (map key ls)) s ;; finish r x).
(** ht.go:201-215 [TestH]: the words are counted, then made again. *)
Definition call_words e grow np f name (perms : list (list N)) (s : sess) : out (sess * live * nat) :=
  let '(ws, r) := genWords perms in
  silent (c <~ r ;; x <~ fill e grow np f name (s_n s) (Z.of_nat (length ws)) (fresh_ops 0 ws) s ;; finish (Ok 0%nat) x).
(** ht.go:274-275, 284: Dups2 of [TestL]. *)
Definition set_dups2 (x : sess * live * list N) : res (sess * live * nat) :=
  Ok (fst x, (length (snd x) - length (fold_left (fun m h => mem_add h m) (snd x) []))%nat).
(** ht.go:291-313 [TestM]; [n] is the new bucket count.  make([]int, n) panics for a negative n; for n = 0
    h%mod or, without keys, ni / n does. *)
Definition call_mod e grow np f name (n : Z) (s : sess) : out (sess * live * nat) :=
  let ni := cf_ni (f_cf f) in
  _ <<- say (IntLine (s_n s) ni) ;;
  if (n <=? 0)%Z then silent Panics
  else
    x <<- silent (fill e grow np f name n n (testM_ops name (seed64 f) ni) s) ;;
    _ <<- say (Expected (Z.quot ni n)) ;;
    _ <<- say (Hist (fold_left (count_in (Z.to_nat n)) (snd x) (repeat 0%nat (Z.to_nat n)))) ;;
    ret (fst x, 0%nat).
(** ht.go:371-374, one round: [ls] and [r] are what ReadFile does. *)
Definition seed_round e grow f name (b : slice) (ls : list (list N)) (r : res nat) (_ : nat) (s : sess) : out sess :=
  w <<- hash_lines e grow name b (f_draw f (s_draws s)) ls r (s_world s) ;; ret (mkSess w (s_n s) (S (s_draws s))).
(** ht.go:358-378 [TestK]. *)
Definition call_keys e grow np f name (contents : option (list N)) (lines : Z) (s : sess) : out (sess * live * nat) :=
  _ <<- say EmptyLine ;;
  let w := s_world s in
  let b := mkSlice (length (mem w)) 0 1000 1000 in
  let '(ls, r) := ReadFile contents in
  (* aseed < uint64(ns) *)
  s <<- each (seed_round e grow f name b ls r) (seq 0 (Z.to_nat (f_ns f mod 2 ^ 64)))
       (mkSess (withMem w (mem w ++ [repeat 0 1000])) (s_n s) (s_draws s)) ;;
  ret (s, live_new np lines (seed64 f) (cf_extra (f_cf f)) (cf_oa (f_cf f)) (cf_prime (f_cf f)), 0%nat).

(** One call of a test function: ht.go:89-313, 358-378.  The result is the state, the table and
    Dups2. *)
Definition call_test (e : ext) (grow : nat -> nat -> nat) (np : N -> N) (f : flags) (name : string) (contents : option (list N))
    (lines : Z) (t : test) (s : sess) : out (sess * live * nat) :=
  let n := if cf_dru (f_cf f) then (- s_n s)%Z else s_n s in
  match t with
  | TA => call_file e grow np f name contents lines keyA s
  | TB => call_file e grow np f name contents lines keyB s
  | TC => call_file e grow np f name contents lines keyC s
  | TD => call_file e grow np f name contents lines keyD s
  | TE => call_file e grow np f name contents lines keyE s
  | TF => call_file e grow np f name contents lines keyF s
  | TG => call_file e grow np f name contents lines keyG s
  | TH => call_words e grow np f name letters s
  | TI => _ <<- say (IntLine (s_n s) (cf_ni (f_cf f))) ;;
          silent (x <~ fill e grow np f name n n (testI_ops (cf_ni (f_cf f))) s ;; finish (Ok 0%nat) x)
  | TJ => silent (x <~ fill e grow np f name (s_n s) (900 * 8)%Z (testJ_ops 900) s ;; finish (Ok 0%nat) x)
  | TL => silent (x <~ fill e grow np f name (s_n s) (256 * 256 * 256)%Z (testL_ops name (seed64 f) 256) s ;; set_dups2 x)
  | TM => call_mod e grow np f name n s
  | TK => call_keys e grow np f name contents lines s
  end.

(** ht.go:733-739: a test with one hash function. *)
Definition call_and_print e grow np f name contents lines t s : out sess :=
  _ <<- say (FuncHead name) ;;
  '(s, ht, d) <<- call_test e grow np f name contents lines t s ;;
  _ <<- (if f_show f then say (SeedLine (f_seed f)) else ret tt) ;;
  _ <<- say (print_table (mem (s_world s)) ht d) ;; ret s.

(** ht.go:706-743 [runTestsWithFileAndHashes], with Test0 (76-87); [fs] are the files, opening "" fails. *)
Definition run_file (e : ext) (grow : nat -> nat -> nat) (np : N -> N) (f : flags) (o : opts) (fs : string -> option (list N))
    (flag : test -> bool) (names : list string) (file : string) (s : sess) : out sess :=
  let contents := if String.eqb file "" then None else fs file in
  lines <<- (if String.eqb file "" then ret (o_lines o)
            else
              lines <<- (if (o_lines o <=? 0)%Z then silent (c <~ snd (ReadFile contents) ;; Ok (Z.of_nat c)) else ret (o_lines o)) ;;
              _ <<- (if f_zero f then
                      _ <<- say ZeroHead ;;
                      _ <<- silent (snd (ReadFile contents)) ;;
                      say (print_table (mem (s_world s)) (live_new np lines (seed64 f) (cf_extra (f_cf f)) (cf_oa (f_cf f)) (cf_prime (f_cf f))) 0)
                    else ret tt) ;;
              ret lines) ;;
  each (fun '(nm, fl, fn, desc) s =>
    if flag fl then
      _ <<- say (TestHead nm desc) ;;
      each (fun name s => if passes o name then call_and_print e grow np f name contents lines fn s else ret s) names s
    else ret s) Tests s.

(** ht.go:806-940 [main] without "-sm", "-b" and "-hcb" (those are in RunModel.v), from the state
    at the start of the process; [n] is the flag "-n". *)
Definition ht_main (e : ext) (grow : nat -> nat -> nat) (np : N -> N) (f : flags) (o : opts) (fs : string -> option (list N)) (n : Z)
    (m : list (list N)) : out sess :=
  let flag := if o_all o then all_on (o_flag o) else o_flag o in
  let names := if String.eqb (o_hf o) "all" then TestHashFunctions else [o_hf o] in
  let s := mkSess (init m) n 0 in
  if negb (String.eqb (o_file o) "") then run_file e grow np f o fs flag names (o_file o) s
  else match o_args o with
       | _ :: _ => each (run_file e grow np f o fs flag names) (o_args o) s
       | [] =>
           let flag := if Nat.eqb (length (filter flag TestPointers)) 0
                       then (fun t => match t with TI | TJ => true | _ => all_off flag t end)
                       else flag in
           _ <<- say Here ;; run_file e grow np f o fs flag names "" s
       end.
