(** What a run of the command prints, put together from single tests as functions of bytes: no
    memory, no package state, no test after another. *)
From Coq Require Import NArith ZArith List Bool String.
From Verif Require Import Words Mem HashfModel HashfSpec HashfProofs HashTableModel LiveSpec HtModel RunSpec HtMainModel.
Import ListNotations.
Open Scope N_scope.
Open Scope list_scope.

(** The pieces of a run, in order.  [SRun] has the value the bucket count flag has then and how
    many seeds have been drawn. *)
Inductive step :=
| SHere
| SCount (file : string)
| SZero (file : string)
| SHead (name desc : string)
| SRun (file name : string) (t : test) (n : Z) (d : nat).

(** All pieces up to the first that fails. *)
Inductive stitched {X} (piece : X -> list shown -> bool -> Prop) : list X -> list shown -> bool -> Prop :=
| st_end : stitched piece [] [] true
| st_next x l a b ok : piece x a true -> stitched piece l b ok -> stitched piece (x :: l) (a ++ b) ok
| st_stop x l a : piece x a false -> stitched piece (x :: l) a false.
Fixpoint until (l : list (list shown * bool)) : list shown * bool :=
  match l with
  | [] => ([], true)
  | (a, true) :: l => let '(b, ok) := until l in (a ++ b, ok)
  | (a, false) :: _ => (a, false)
  end.

(** Bytes, and not so many that four copies of a line would not fit in memory. *)
Definition small_file (c : list N) : Prop := bytes_ok c /\ 4 * N.of_nat (List.length c) + 8 < 2 ^ 64.

(** The tests in their order: heading, flag, what is run (flag G runs test F, M has the heading of L). *)
Definition listed : list (string * test * test * string) := [
  ("TestA", TA, TA, "insert keys");
  ("TestB", TB, TB, "add newline to key");
  ("TestC", TC, TC, "add 4 newlines to key");
  ("TestD", TD, TD, "prepend ABCDE to key");
  ("TestE", TE, TE, "add 1 duplicate key");
  ("TestF", TF, TF, "add 3 duplicate keys");
  ("TestG", TG, TF, "reverse letter order in key");
  ("TestH", TH, TH, "words from letter combinations in wc");
  ("TestI", TI, TI, "integers from 0 to ni-1 (does not read file)");
  ("TestJ", TJ, TJ, "one bit keys (does not read file)");
  ("TestK", TK, TK, "read file of keys and print hashes");
  ("TestL", TL, TL, "all possible 3 byte keys");
  ("TestL", TM, TM, "hash function mod test")]%string.

Section Pieces.
  Variable e : ext.
  Variable np : N -> N.
  Variable f : flags.
  Variable o : opts.
  Variable fs : string -> option (list N).

  Definition text (file : string) : option (list N) := if String.eqb file "" then None else fs file.
  Definition lines_of (file : string) : list (list N) := fst (ReadFile (text file)).
  (** The file can be opened and has no blank line. *)
  Definition whole (file : string) : bool := match snd (ReadFile (text file)) with Ok _ => true | _ => false end.
  (** The number of lines the tables are made for. *)
  Definition lines_for (file : string) : Z :=
    if negb (String.eqb file "") && (o_lines o <=? 0)%Z then Z.of_nat (length (lines_of file)) else o_lines o.

  Definition empty_table (sz : Z) : table := new_table np sz (cf_extra (f_cf f)) (cf_oa (f_cf f)) (cf_prime (f_cf f)).
  (** The summary line of a table. *)
  Definition summary (t : table) (dups2 : nat) : shown :=
    if is_oa t then Open (size t) (inserts (st t)) (probes (st t)) (cols (st t)) (dups (st t))
    else Chained (size t) (inserts (st t)) (heads (st t)) (nbuckets (st t)) (longest (st t)) (dups (st t)) dups2 (map (@length key) (buckets t)).
  Definition ending (t : table) (dups2 : nat) : list shown :=
    (if f_show f then [SeedLine (f_seed f)] else []) ++ [summary t dups2].

  (** The keys a test inserts and the size of its table. *)
  Definition test_keys (file : string) (t : test) : list key :=
    match t with
    | TA => map keyA (lines_of file) | TB => map keyB (lines_of file) | TC => map keyC (lines_of file) | TD => map keyD (lines_of file)
    | TE => map keyE (lines_of file) | TF => map keyF (lines_of file) | TG => map keyG (lines_of file)
    | TH => fst (genWords letters) | TI => keysI (cf_ni (f_cf f)) | TJ => march 900 | TL => triples 256 | TK | TM => []
    end.
  Definition reads (t : test) : bool := match t with TA | TB | TC | TD | TE | TF | TG | TK => true | _ => false end.
  Definition changed (n : Z) : Z := if cf_dru (f_cf f) then (- n)%Z else n.
  Definition table_for (file : string) (t : test) (n : Z) : Z :=
    match t with TH => Z.of_nat (length (fst (genWords letters))) | TI | TM => changed n | TJ => 7200 | TL => 16777216 | _ => lines_for file end.

  (** A hash function of that name takes all these keys. *)
  Definition takes (name : string) (ks : list key) : bool := forallb (fun k => acceptsb (length k) name) ks.
  Definition opening (name : string) (t : test) (n : Z) : list shown :=
    FuncHead name :: match t with TI | TM => [IntLine n (cf_ni (f_cf f))] | TK => [EmptyLine] | _ => [] end.

  (** Test K under one seed. *)
  Definition one_seed (file name : string) (s : N) : list (list shown * bool) :=
    map (fun l => if takes name [repeat 0 1000]
                  then match hexToBytes l with Ok k => ([KeyLine s k (named e name s (repeat 0 1000))], true) | _ => ([], false) end
                  else ([], false)) (lines_of file) ++ [([], whole file)].
  Definition seeds (d : nat) : list N := map (f_draw f) (seq d (Z.to_nat (f_ns f mod 2 ^ 64))).

  (** A test with a hash function that is a function of the key. *)
  Definition section (file name : string) (t : test) (n : Z) (d : nat) : list shown * bool :=
    let hf := named e name (Z.to_N (f_seed f mod 2 ^ 64)) in
    match t with
    | TK => let '(a, ok) := until (flat_map (one_seed file name) (seeds d)) in
            (opening name t n ++ a ++ (if ok then ending (empty_table (table_for file t n)) 0 else []), ok)
    | TM => if (0 <? changed n)%Z && takes name (keysI (cf_ni (f_cf f)))
            then (opening name t n ++ [Expected (Z.quot (cf_ni (f_cf f)) (changed n)); Hist (histogram hf (Z.to_nat (changed n)) (keysI (cf_ni (f_cf f))))]
                    ++ ending (empty_table (changed n)) 0, true)
            else (opening name t n, false)
    | _ => match insert_all hf (empty_table (table_for file t n)) (test_keys file t) with
           | Ret T => if takes name (test_keys file t) && (negb (reads t) || whole file)
                      then (opening name t n ++ ending T (match t with TL => dups2 hf (triples 256) | _ => 0%nat end), true)
                      else (opening name t n, false)
           | _ => (opening name t n, false)
           end
    end.

  (** With the counting names where the piece begins, what kind of lines it has, the size on the last line and,
      with chains, whether it succeeds. *)
  Definition inner (x : shown) : Prop := match x with KeyLine _ _ _ | Expected _ | Hist _ | SeedLine _ | Open _ _ _ _ _ | Chained _ _ _ _ _ _ _ _ => True | _ => False end.
  Definition sized (n : N) (x : shown) : Prop :=
    match x with Open s _ _ _ _ => cf_oa (f_cf f) = true /\ s = n | Chained s _ _ _ _ _ _ _ => cf_oa (f_cf f) = false /\ s = n | _ => False end.
  Definition counted (file name : string) (t : test) (n : Z) (a : list shown) (ok : bool) : Prop :=
    let sz := size (empty_table (table_for file t n)) in
    (exists rest, a = opening name t n ++ rest /\ Forall inner rest /\
       (ok = true -> exists mid x, rest = mid ++ (if f_show f then [SeedLine (f_seed f)] else []) ++ [x] /\ sized sz x)) /\
    (cf_oa (f_cf f) = false -> t <> TK -> 1 <= sz -> fits 64 sz ->
     ok = ((negb (reads t) || whole file) && match t with TM => (0 <? changed n)%Z | _ => true end)).
  Definition piece (x : step) (a : list shown) (ok : bool) : Prop :=
    match x with
    | SHere => a = [Here] /\ ok = true
    | SCount file => a = [] /\ ok = whole file
    | SZero file => a = ZeroHead :: (if whole file then [summary (empty_table (lines_for file)) 0] else []) /\ ok = whole file
    | SHead name desc => a = [TestHead name desc] /\ ok = true
    | SRun file name t n d => if counter name then counted file name t n a ok else (a, ok) = section file name t n d
    end.

  (** The same as a function, for steps without a counting name. *)
  Definition exactly (x : step) : list shown * bool :=
    match x with
    | SHere => ([Here], true)
    | SCount file => ([], whole file)
    | SZero file => (ZeroHead :: (if whole file then [summary (empty_table (lines_for file)) 0] else []), whole file)
    | SHead name desc => ([TestHead name desc], true)
    | SRun file name t n d => section file name t n d
    end.
  (** A test that has something to hash. *)
  Definition has_key (file : string) (t : test) : Prop :=
    match t with TK => (f_ns f mod 2 ^ 64 <> 0)%Z /\ lines_of file <> [] | TM => (0 < cf_ni (f_cf f))%Z | _ => test_keys file t <> [] end.
  (** Nothing stands in the way of a step: files without blank lines, tables with a bucket, names that take the keys. *)
  Definition clear_way (x : step) : Prop :=
    match x with
    | SHere | SHead _ _ => True
    | SCount file | SZero file => whole file = true
    | SRun file name t n d =>
        let sz := size (empty_table (table_for file t n)) in
        t <> TK /\ (reads t = true -> whole file = true) /\ 1 <= sz /\ fits 64 sz /\
        (counter name = true \/ takes name (match t with TM => keysI (cf_ni (f_cf f)) | _ => test_keys file t end) = true) /\ (t = TM -> (0 < changed n)%Z)
    end.

  (** The plan: what is run on a file, [n] and [d] still missing. *)
  Definition plan_file (flag : test -> bool) (names : list string) (file : string) : list step :=
    (if String.eqb file "" then [] else
       (if (o_lines o <=? 0)%Z then [SCount file] else []) ++ (if f_zero f then [SZero file] else [])) ++
    flat_map (fun '(nm, fl, fn, desc) =>
      if flag fl then SHead nm desc :: map (fun name => SRun file name fn 0 0) (filter (passes o) names) else []) listed.
  (** Test I and M change the flag, test K draws. *)
  Fixpoint number (n : Z) (d : nat) (l : list step) : list step :=
    match l with
    | [] => []
    | SRun file name t _ _ :: l =>
        SRun file name t n d ::
        number (match t with TI | TM => changed n | _ => n end) (match t with TK => d + Z.to_nat (f_ns f mod 2 ^ 64) | _ => d end)%nat l
    | x :: l => x :: number n d l
    end.
  Definition flags_on : test -> bool := if o_all o then all_on (o_flag o) else o_flag o.
  Definition names_on : list string := if String.eqb (o_hf o) "all" then TestHashFunctions else [o_hf o].
  Definition plan (n : Z) : list step :=
    number n 0
      (if negb (String.eqb (o_file o) "") then plan_file flags_on names_on (o_file o)
       else match o_args o with
            | _ :: _ => flat_map (plan_file flags_on names_on) (o_args o)
            | [] => SHere :: plan_file (if existsb flags_on TestPointers then flags_on else fun t => match t with TI | TJ => true | _ => false end) names_on ""
            end).
End Pieces.
