(** Model of /repo/ht.go: the command that reads or generates keys, puts them in
    a hash table and reports.  Strings are lists of bytes.  Timing, printing and
    the benchmarks are not modelled. *)
From Coq Require Import NArith ZArith List Arith Ascii String Bool.
From Verif Require Import Words Mem HashTableModel HashfModel.
Import ListNotations.
Open Scope N_scope.
Open Scope list_scope.

(** bufio.Reader.ReadString(10), ht.go:53: everything up to and including the
    next newline, the rest, and whether there was one. *)
Fixpoint read_string (s : list N) : list N * list N * bool :=
  match s with
  | [] => ([], [], false)
  | c :: r => if c =? 10 then ([c], r, true)
              else let '(l, rest, ok) := read_string r in (c :: l, rest, ok)
  end.

(** ht.go:60-68 [if s[len(s)-1] == c { s = s[:len(s)-1] }]: an empty [s] panics. *)
Definition chop (c : N) (s : list N) : res (list N) :=
  x <~ (match s with [] => Panics | _ => idx s (List.length s - 1) end) ;;
  Ok (if x =? c then firstn (List.length s - 1) s else s).

(** ht.go:51-74, the loop of [ReadFile]: the lines handed to the callback and
    the returned count, or the panic. *)
Fixpoint read_loop (fuel : nat) (s : list N) (lines : nat) : list (list N) * res nat :=
  match fuel with
  | O => ([], NoFuel)
  | S f =>
      let '(l, rest, ok) := read_string s in
      if ok then
        match (l <~ chop 10 l ;; l <~ chop 13 l ;; chop 32 l) with
        | Ok l => let '(ls, r) := read_loop f rest (S lines) in (l :: ls, r)
        | Panics => ([], Panics) | Overread => ([], Overread) | NoFuel => ([], NoFuel)
        end
      else ([], Ok lines)
  end.

(** ht.go:37-74 [ReadFile] on a file with the given contents; [None] is a file
    that cannot be opened.  Other read errors are not modelled. *)
Definition ReadFile (contents : option (list N)) : list (list N) * res nat :=
  match contents with
  | None => ([], Panics)
  | Some s => read_loop (S (List.length s)) s 0
  end.

(** Go's [string(b)] for a byte [b]: the UTF-8 encoding of code point [b] (ht.go:181). *)
Definition utf8 (b : N) : list N :=
  if b <? 128 then [b] else [N.lor 192 (shr b 6); N.lor 128 (N.land b 63)].

(** ht.go:177-182 [reverse]. *)
Fixpoint reverse (s : list N) : list N :=
  match s with [] => [] | c :: r => reverse r ++ utf8 c end.

(** ht.go:402-417 [inc] from position [idx] on (the [for] loop). *)
Fixpoint inc_loop (fuel : nat) (perms : list (list N)) (indices : list nat) (idx : nat)
    : res (list nat * bool) :=
  match fuel with
  | O => NoFuel
  | S f =>
      match nth_error indices idx with
      | None => Panics
      | Some x =>
          let indices := set_nth idx (S x) indices in
          match nth_error perms idx with
          | None => Panics
          | Some p =>
              if Nat.leb (List.length p) (S x) then
                let indices := set_nth idx 0%nat indices in
                let idx := S idx in
                if Nat.leb (List.length perms) idx then Ok (indices, true)
                else inc_loop f perms indices idx
              else Ok (indices, false)
          end
      end
  end.

(** ht.go:419-432 [letter] and [word]; [n] is [len(perms)]. *)
Fixpoint word (n : nat) (indices : list nat) (p : list (list N)) : res (list N) :=
  match p with
  | [] => Ok []
  | s :: r =>
      match nth_error indices (n - List.length p) with
      | None => Panics
      | Some d => b <~ idx s d ;; rest <~ word n indices r ;; Ok (utf8 b ++ rest)
      end
  end.

(** ht.go:433-439, the loop of [genWords]: words handed out, and how it ended. *)
Fixpoint gen_loop (fuel : nat) (perms : list (list N)) (indices : list nat) : list (list N) * res unit :=
  match fuel with
  | O => ([], NoFuel)
  | S f =>
      match word (List.length perms) indices perms with
      | Ok w =>
          match inc_loop (S (List.length perms)) perms indices 0 with
          | Ok (indices, stop) =>
              if stop then ([w], Ok tt)
              else let '(ws, r) := gen_loop f perms indices in (w :: ws, r)
          | Panics => ([w], Panics) | Overread => ([w], Overread) | NoFuel => ([w], NoFuel)
          end
      | Panics => ([], Panics) | Overread => ([], Overread) | NoFuel => ([], NoFuel)
      end
  end.

(** ht.go:399-440 [genWords].  The fuel is the number of combinations plus one
    (running out of it is proved impossible). *)
Definition genWords (perms : list (list N)) : list (list N) * res unit :=
  gen_loop (S (fold_right (fun p n => List.length p * n) 1 perms)%nat) perms
           (repeat 0%nat (List.length perms)).

(** ht.go:457-477 [checkForDups32], the loop: [k] is the position of the first
    element of [l] in [u]. *)
Fixpoint dups_loop (u : list N) (k : nat) (l : list N) (i run dups mrun : nat) : nat * nat :=
  match l with
  | [] => (dups, mrun)
  | v :: r =>
      if Nat.eqb k 0 || Nat.eqb i k then dups_loop u (S k) r i run dups mrun
      else if nth i u 0 =? v then dups_loop u (S k) r i (S run) (S dups) mrun
      else dups_loop u (S k) r k 0 dups (if Nat.ltb mrun run then run else mrun)
  end.
Definition checkForDups32 (u : list N) : nat * nat := dups_loop u 0 u 0 0 0 0.

(** ht.go:315-325 [unhex]. *)
Definition unhex (c : N) : res N :=
  if (48 <=? c) && (c <=? 57) then Ok (c - 48)
  else if (97 <=? c) && (c <=? 102) then Ok (c - 97 + 10)
  else if (65 <=? c) && (c <=? 70) then Ok (c - 65 + 10)
  else Panics.

(** ht.go:334-336: the loop of [hexToBytes] over positions [i], [i+1], ... *)
Fixpoint hex_loop (s : list N) (i n : nat) : res (list N) :=
  match n with
  | O => Ok []
  | S n =>
      a <~ idx s (2 * i) ;; a <~ unhex a ;; b <~ idx s (2 * i + 1) ;; b <~ unhex b ;;
      r <~ hex_loop s (S i) n ;;
      Ok (N.lor (shlw 8 a 4) b :: r)
  end.
(** ht.go:327-340 [hexToBytes]; the slice of a 1000-byte buffer panics first. *)
Definition hexToBytes (s : list N) : res (list N) :=
  if Nat.ltb 1000 (List.length s / 2) then Panics
  else if Nat.odd (List.length s) then Panics
  else hex_loop s 0 (List.length s / 2).

(** The tests (ht.go:690-704). *)
Inductive test := TA | TB | TC | TD | TE | TF | TG | TH | TI | TJ | TK | TL | TM.

(** The key each file test makes of a line: ht.go:97 (A), 114-116 (B), 127-129
    (C), 140-142 (D), 153-155 (E), 166-168 (F), 185-188 (G). *)
Definition keyA (line : list N) := line.
Definition keyB (line : list N) := line ++ [10].
Definition keyC (line : list N) := line ++ (line ++ [10; 10; 10; 10]).
Definition keyD (line : list N) := [65; 66; 67; 68; 69] ++ line.
Definition keyE (line : list N) := line ++ line.
Definition keyF (line : list N) := line ++ line ++ line ++ line.
Definition keyG (line : list N) := reverse line.

(** ht.go:795 [letters]. *)
Definition bytes_of (s : string) : list N := map (fun c => N_of_ascii c) (list_ascii_of_string s).
Definition letters : list (list N) :=
  map bytes_of ["abcdefgh"; "efghijkl"; "ijklmnop"; "mnopqrst"; "qrstuvwx"; "uvwxyz01"]%string.

(** ht.go:226-227, 303-304: the 4 bytes of the loop counter. *)
Definition int_key (i : nat) : list N :=
  map (fun s => wrap 8 (shr (N.of_nat i) s)) [0; 8; 16; 24].
(** ht.go:225-229: the keys of [TestI]; a negative [ni] makes none. *)
Definition keysI (ni : Z) : list key := map int_key (seq 0 (Z.to_nat ni)).

(** ht.go:244-250: the keys of [TestJ] ([len] = 900), the buffer being set and cleared. *)
Fixpoint march_bits (buf : list N) (k : nat) (bits : list nat) : list key * list N :=
  match bits with
  | [] => ([], buf)
  | i :: r =>
      let buf := set_nth k (shlw 8 1 (N.of_nat i)) buf in
      let '(ks, buf') := march_bits (set_nth k 0 buf) k r in
      (buf :: ks, buf')
  end.
Fixpoint march_bytes (buf : list N) (ks : list nat) : list key :=
  match ks with
  | [] => []
  | k :: r => let '(l, buf) := march_bits buf k (seq 0 8) in l ++ march_bytes buf r
  end.
Definition march (len : nat) : list key := march_bytes (repeat 0 len) (seq 0 len).

(** ht.go:268-281: the keys of [TestL], [n] values for each byte ([n] = 256). *)
Definition triples (n : nat) : list key :=
  flat_map (fun i => flat_map (fun j => map (fun k => [N.of_nat i; N.of_nat j; N.of_nat k])
                                            (seq 0 n)) (seq 0 n)) (seq 0 n).

(** ht.go:274-275, 284: the Go map used as a set, and [Dups2]. *)
Fixpoint mem_add (h : N) (m : list N) : list N :=
  match m with [] => [h] | x :: r => if x =? h then m else x :: mem_add h r end.
Definition dups2 (hf : key -> N) (ks : list key) : nat :=
  (List.length ks - List.length (fold_left (fun m k => mem_add (hf k) m) ks []))%nat.

(** ht.go:299-306: the histogram of [TestM] for positive [n]. *)
Definition histogram (hf : key -> N) (n : nat) (ks : list key) : list nat :=
  fold_left (fun hist k => let j := N.to_nat (hf k mod N.of_nat n) in
                           set_nth j (S (nth j hist 0%nat)) hist) ks (repeat 0%nat n).

(** ht.go:361-367, 371-374: what [TestK] prints for one seed: key and hash for
    each line, the hash being taken of the outer buffer [b], before the line is
    decoded into the inner one. *)
Definition testK (hashf : key -> N -> N) (contents : option (list N)) (rseed : N)
    : list (key * N) * res unit :=
  let '(ls, r) := ReadFile contents in
  (fix go ls := match ls with
   | [] => ([], match r with Ok _ => Ok tt | Panics => Panics | Overread => Overread | NoFuel => NoFuel end)
   | l :: ls =>
       let h := hashf (repeat 0 1000) rseed in
       match hexToBytes l with
       | Ok b => let '(out, e) := go ls in ((b, h) :: out, e)
       | Panics => ([], Panics) | Overread => ([], Overread) | NoFuel => ([], NoFuel)
       end
   end) ls.

(** The flags that matter to the tests: ht.go:747-751 [extra], [prime], [oa],
    769-775 [ni], [dru]. *)
Record config := mkConfig {
  cf_extra : Z; cf_prime : bool; cf_oa : bool; cf_ni : Z; cf_dru : bool
}.

(** The panics of ReadFile, ht.go:37-66, reach its callers. *)
Definition of_res {A B} (r : res A) (k : A -> outcome B) : outcome B :=
  match r with Ok a => k a | NoFuel => OutOfFuel | _ => Panic end.

(** A file test, ht.go:102-109 and alike: insert the key made of each line while
    the file is read.  (A panic of [Insert] and one of [ReadFile] are the same
    to the caller, so the insertions can be done before looking at how the
    reading ended.) *)
Definition file_test (np : N -> N) (cf : config) (hf : key -> N) (f : list N -> key)
    (contents : option (list N)) (lines : Z) : outcome table :=
  let t := new_table np lines (cf_extra cf) (cf_oa cf) (cf_prime cf) in
  let '(ls, r) := ReadFile contents in
  match insert_all hf t (map f ls) with
  | Ret t => of_res r (fun _ => Ret t)
  | Panic => Panic
  | OutOfFuel => OutOfFuel
  end.

(** One call of a test function: ht.go:89-313, 358-378.  The state is the
    bucket count flag [*n], which tests I and M negate when [-dru] is given.
    For K the table stays empty and one seed is used (the
    default of [-ns]); its printing is [testK] above. *)
Definition run_test (np : N -> N) (cf : config) (hf : key -> N) (n : Z) (contents : option (list N))
    (lines : Z) (t : test) : Z * outcome table :=
  let new sz := new_table np sz (cf_extra cf) (cf_oa cf) (cf_prime cf) in
  let n' := if cf_dru cf then (- n)%Z else n in
  match t with
  | TA => (n, file_test np cf hf keyA contents lines)
  | TB => (n, file_test np cf hf keyB contents lines)
  | TC => (n, file_test np cf hf keyC contents lines)
  | TD => (n, file_test np cf hf keyD contents lines)
  | TE => (n, file_test np cf hf keyE contents lines)
  | TF => (n, file_test np cf hf keyF contents lines)
  | TG => (n, file_test np cf hf keyG contents lines)
  | TH => (n, let '(ws, r) := genWords letters in
              of_res r (fun _ => let '(ws, r) := genWords letters in
                of_res r (fun _ => insert_all hf (new (Z.of_nat (List.length ws))) ws)))
  | TI => (n', insert_all hf (new n') (keysI (cf_ni cf)))
  | TJ => (n, insert_all hf (new (900 * 8)%Z) (march 900))
  | TK => (n, match snd (testK (fun _ _ => 0) contents 0) with
              | Ok _ => Ret (new lines) | NoFuel => OutOfFuel | _ => Panic end)
  | TL => (n, insert_all hf (new (256 * 256 * 256)%Z) (triples 256))
  (* make([]int, n) panics for a negative n, ni / n for n = 0 *)
  | TM => (n', if (n' <=? 0)%Z then Panic else Ret (new n'))
  end.

(** ht.go:690-704 [Tests]: printed name, flag, function called, description. *)
Definition Tests : list (string * test * test * string) := [
  ("TestA", TA, TA, "insert keys");
  ("TestB", TB, TB, "add newline to key");
  ("TestC", TC, TC, "add 4 newlines to key");
  ("TestD", TD, TD, "prepend ABCDE to key");
  ("TestE", TE, TE, "add 1 duplicate key");
  ("TestF", TF, TF, "add 3 duplicate keys");
  ("TestG", TG, TF, "reverse letter order in key");
  ("TestH", TH, TH, "words from letter combinations in wc");
  ("TestI", TI, TI, "integers from 0 to ni-1 (does not read file)");
  ("TestJ", TJ, TJ, "one bit keys (does not read file)");
  ("TestK", TK, TK, "read file of keys and print hashes");
  ("TestL", TL, TL, "all possible 3 byte keys");
  ("TestL", TM, TM, "hash function mod test")]%string.

(** hashf.go:83-156: the names with [Crypto] true. *)
Definition crypto_names : list string :=
  ["perfecthash"; "nullhash"; "nullhashF64ns"; "aeshash64"; "siphash64"; "siphash64pg";
   "keccak224"; "keccakpg643"; "keccakpg644"; "keccakpg648"; "sha1"; "keccak160";
   "whirlpool"; "blake2b"]%string.
Definition is_crypto (s : string) : bool := existsb (String.eqb s) crypto_names.
(** [HashFunctions[Hf2].Size]: 0 for a name missing from the map (ht.go:723, 859, 881). *)
Definition map_size (s : string) : N :=
  match find (fun p => String.eqb (fst p) s) HashFunctions with Some p => snd p | None => 0 end.

(** Command line (ht.go:744-793) after parsing; the flags [A] ... [M] are a function. *)
Record opts := mkOpts {
  o_file : string; o_args : list string; o_lines : Z; o_hf : string; o_all : bool;
  o_c : bool; o_h32 : bool; o_h64 : bool; o_b : bool; o_hcb : bool; o_sm : bool;
  o_flag : test -> bool
}.

(** ht.go:724-732, 860-868, 882-890: does a hash function pass the filters. *)
Definition passes (o : opts) (name : string) : bool :=
  if o_c o && negb (is_crypto name) then false
  else if o_h32 o && negb (map_size name =? 32) then false
  else if o_h64 o && negb (map_size name =? 64) then false
  else true.

(** What the command goes on to do (ht.go:858-937). *)
Inductive job :=
| SMHasher (name : string)
| Benchmark (name : string)
| HardCoded
| Run (file : string) (name : string) (fn : test).

(** ht.go:719-741: the test loop of [runTestsWithFileAndHashes].  The optional
    Test0, which only prints, is left out. *)
Definition jobs_for (o : opts) (flag : test -> bool) (file : string) (names : list string) : list job :=
  flat_map (fun '(_, fl, fn, _) =>
    if flag fl then flat_map (fun name => if passes o name then [Run file name fn] else []) names
    else []) Tests.

(** ht.go:798-804 [allTestsOn], [allTestsOff]: both leave [K] alone. *)
Definition all_on (flag : test -> bool) (t : test) : bool := match t with TK => flag TK | _ => true end.
Definition all_off (flag : test -> bool) (t : test) : bool := match t with TK => flag TK | _ => false end.

(** ht.go:796 [TestPointers]. *)
Definition TestPointers : list test := [TA; TB; TC; TD; TE; TF; TG; TH; TI; TJ; TK; TL; TM].

(** ht.go:806-940 [main]: which jobs a command line leads to.  The random seed,
    tracing and printing are left out. *)
Definition main_jobs (o : opts) : list job :=
  let flag := if o_all o then all_on (o_flag o) else o_flag o in
  let b := if o_hcb o then true else o_b o in
  let names := if String.eqb (o_hf o) "all" then TestHashFunctions else [o_hf o] in
  if o_sm o then
    if String.eqb (o_hf o) "all"
    then map SMHasher (filter (passes o) TestHashFunctions) else [SMHasher (o_hf o)]
  else if b then
    if String.eqb (o_hf o) "all"
    then map Benchmark (filter (passes o) TestHashFunctions)
    else if o_hcb o then [HardCoded] else [Benchmark (o_hf o)]
  else if negb (String.eqb (o_file o) "") then jobs_for o flag (o_file o) names
  else match o_args o with
       | _ :: _ => flat_map (fun v => jobs_for o flag v names) (o_args o)
       | [] =>
           let cnt := List.length (filter flag TestPointers) in
           let flag := if Nat.eqb cnt 0
                       then (fun t => match t with TI | TJ => true | _ => all_off flag t end)
                       else flag in
           jobs_for o flag "" names
       end.

(** ht.go:708-711: [lines] defaults to the number of lines in the file.  (The code
    counts them once for all tests on a file, also when no test is selected.) *)
Definition run_lines (contents : option (list N)) (file : string) (lines : Z) : outcome Z :=
  if negb (String.eqb file "") && (lines <=? 0)%Z
  then of_res (snd (ReadFile contents)) (fun c => Ret (Z.of_nat c)) else Ret lines.

(** ht.go:735: the test jobs one after the other; each result is the table
    printed.  Stops at the first panic. *)
Fixpoint run_jobs (np : N -> N) (cf : config) (hfs : string -> key -> N) (fs : string -> option (list N))
    (lines : Z) (n : Z) (js : list job) : list table * bool :=
  match js with
  | [] => ([], true)
  | Run file name fn :: r =>
      match run_lines (fs file) file lines with
      | Ret lines' =>
          let '(n', o) := run_test np cf (hfs name) n (fs file) lines' fn in
          match o with
          | Ret t => let '(ts, ok) := run_jobs np cf hfs fs lines n' r in (t :: ts, ok)
          | _ => ([], false)
          end
      | _ => ([], false)
      end
  | _ :: r => run_jobs np cf hfs fs lines n r
  end.
