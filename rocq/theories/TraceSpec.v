(** Specification vocabulary of C98 and C99: reading the printed lines back. *)
From Verif Require Import Words HashTableModel HashTableSpec TraceModel.
From Coq Require Import ZArith.
Open Scope N_scope.

(** The trace lines, and the lines of the listing, of an output. *)
Definition traces (o : list out) : list tline := flat_map (fun x => match x with Trc l => [l] | _ => [] end) o.
Definition listed (o : list out) : list (N * N * key) := flat_map (fun x => match x with Dup h i k => [(h, i, k)] | _ => [] end) o.

(** The number a trace shows for a key: its first four bytes, little endian. *)
Definition shown (k : key) : N := nth 0 k 0 + 2 ^ 8 * nth 1 k 0 + 2 ^ 16 * nth 2 k 0 + 2 ^ 24 * nth 3 k 0.

(** A reader of the trace: "I" appends value "v" to bucket "b", where it must become number
    "t"; "P" must name a bucket that holds something. *)
Definition replay_line (bs : option (list (list N))) (l : tline) : option (list (list N)) :=
  match bs with
  | None => None
  | Some bs =>
      match nth_error bs (N.to_nat (l_b l)) with
      | None => None
      | Some b =>
          match l_op l with
          | OpI => if N.of_nat (length b) =? l_t l then Some (set_nth (N.to_nat (l_b l)) (b ++ [l_v l]) bs) else None
          | OpP => if nonempty b then Some bs else None
          end
      end
  end.
Definition replay (n : N) (ls : list tline) : option (list (list N)) :=
  fold_left replay_line ls (Some (repeat [] (N.to_nat n))).

(** All pairs (later key, earlier key) of a list with equal hash. *)
Fixpoint equal_pairs (hf : key -> N) (ks : list key) : list (key * key) :=
  match ks with
  | [] => []
  | k :: r => map (fun k' => (k', k)) (filter (fun k' => hf k' =? hf k) r) ++ equal_pairs hf r
  end.
(** The listing of a number of such pairs, each with the slot of the earlier key: two lines
    per pair. *)
Definition listing (hf : key -> N) (q : list (N * key * key)) : list (N * N * key) :=
  flat_map (fun '(i, k, k') => [(hf k, i, k); (hf k', i, k')]) q.
