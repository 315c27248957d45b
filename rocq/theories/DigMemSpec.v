(** Digests as values: what they should be if they shared no memory with anyone. *)
From Coq Require Import NArith ZArith List Arith.
From Verif Require Import Words ListLemmas Blocks Mem KeccakModel SipModel JenkinsModel Mm3Model DigMemModel.
Import ListNotations.
Open Scope N_scope.

(** The digests of C10, C16, C26 and C59: functions of the bytes written. *)
Inductive value := V3 (d : st332) | V6 (d : st364) | V2 (d : st232) | V4 (d : mdigest N) | V8 (d : mdigest (N * N)) | V16 (d : mdigest (N * N)) | VS (d : sip_digest).
Definition v_new (k : kind) : value :=
  match k with K332 s => V3 (new332 s) | K364 s => V6 (new364 s) | K232 s => V2 (new232 s) | K32 => V4 mm_new32 | K64 => V8 mm_new64 | K128 => V16 mm_new128 end.
Definition v_write (v : value) (p : list N) : value :=
  match v with
  | V3 d => V3 (fst (write332 d p)) | V6 d => V6 (fst (write364 d p)) | V2 d => V2 (fst (write232 d p))
  | V4 d => V4 (fst (mm_write32 d p)) | V8 d => V8 (fst (mm_write128 d p)) | V16 d => V16 (fst (mm_write128 d p))
  | VS d => VS (fst (sip_write d p))
  end.
Definition v_sum (v : value) : res (value * list N) :=
  match v with
  | V3 d => '(d, b) <~ sum_332 d [] ;; Ok (V3 d, b) | V6 d => '(d, b) <~ sum_364 d [] ;; Ok (V6 d, b) | V2 d => '(d, b) <~ sum_232 d [] ;; Ok (V2 d, b)
  | V4 d => Ok (v, mm_sum_bytes32 d []) | V8 d => Ok (v, mm_sum_bytes64 d []) | V16 d => Ok (v, mm_sum_bytes128 d [])
  | VS d => Ok (v, sip_sum d [])
  end.
Definition v_num (v : value) : res (value * list N) :=
  match v with
  | V3 d => '(d, h) <~ sum32_332 d ;; Ok (V3 d, [h]) | V6 d => '(d, h) <~ sum64_364 d ;; Ok (V6 d, [h]) | V2 d => '(d, h) <~ sum32_232 d ;; Ok (V2 d, [h])
  | V4 d => Ok (v, [mm_dsum32 d]) | V8 d => Ok (v, [mm_dsum64 d]) | V16 d => Ok (v, [fst (mm_dsum128 d); snd (mm_dsum128 d)])
  | VS d => Ok (v, [sip_sum64 d])
  end.
Definition v_reset (v : value) : value :=
  match v with
  | V3 d => V3 (reset332 d) | V6 d => V6 (reset364 d) | V2 d => V2 (reset232 d)
  | V4 d => V4 (mm_reset 0 d) | V8 d => V8 (mm_reset (0, 0) d) | V16 d => V16 (mm_reset (0, 0) d)
  | VS d => VS (sip_reset d)
  end.
Definition v_copyable (v : value) : bool := match v with V3 _ | V6 _ | V2 _ => true | _ => false end.

(** The same programs; [ms] are the program's arrays and nothing else.  Sum(b) is append. *)
Fixpoint val_run (grow : nat -> nat -> nat) (ms : list (list N)) (vs : list value) (ops : list mop) : res (list (list N) * list (list N)) :=
  match ops with
  | [] => Ok ([], ms)
  | DAlloc bs :: ops => val_run grow (ms ++ [bs]) vs ops
  | DAssign a o bs :: ops => val_run grow (store ms a o bs) vs ops
  | DNew k :: ops => val_run grow ms (vs ++ [v_new k]) ops
  | DSip size a o n :: ops =>
      match sip_new_digest size (firstn n (skipn o (nth a ms []))) with None => Panics | Some d => val_run grow ms (vs ++ [VS d]) ops end
  | DWrite d a o n :: ops =>
      match nth_error vs d with
      | None => Panics
      | Some v => val_run grow ms (upd vs d (v_write v (firstn n (skipn o (nth a ms []))))) ops
      end
  | DSum d a o n :: ops =>
      match nth_error vs d with
      | None => Panics
      | Some v =>
          '(v, b) <~ v_sum v ;;
          let '(ms', s) := append grow ms (cut ms a o n) b in
          '(out, ms') <~ val_run grow ms' (upd vs d v) ops ;; Ok ((firstn n (skipn o (nth a ms [])) ++ b) :: out, ms')
      end
  | DNum d :: ops =>
      match nth_error vs d with
      | None => Panics
      | Some v => '(v, b) <~ v_num v ;; '(out, ms) <~ val_run grow ms (upd vs d v) ops ;; Ok (b :: out, ms)
      end
  | DReset d :: ops => match nth_error vs d with None => Panics | Some v => val_run grow ms (upd vs d (v_reset v)) ops end
  | DCopy d :: ops =>
      match nth_error vs d with
      | Some v => if v_copyable v then val_run grow ms (vs ++ [v]) ops else Panics
      | None => Panics
      end
  end.
(** The arrays the program has: append of Sum may add one. *)
Definition in_bounds (ms : list (list N)) (a o n : nat) : Prop := (a < length ms)%nat /\ (o + n <= length (nth a ms []))%nat.
(** Offsets within the arrays, along the run. *)
Fixpoint mops_ok (grow : nat -> nat -> nat) (ms : list (list N)) (vs : list value) (ops : list mop) : Prop :=
  match ops with
  | [] => True
  | DAlloc bs :: ops => mops_ok grow (ms ++ [bs]) vs ops
  | DAssign a o bs :: ops => in_bounds ms a o (length bs) /\ mops_ok grow (store ms a o bs) vs ops
  | DNew k :: ops => mops_ok grow ms (vs ++ [v_new k]) ops
  | DSip size a o n :: ops =>
      in_bounds ms a o n /\ match sip_new_digest size (firstn n (skipn o (nth a ms []))) with None => True | Some d => mops_ok grow ms (vs ++ [VS d]) ops end
  | DWrite d a o n :: ops =>
      in_bounds ms a o n /\ match nth_error vs d with None => True | Some v => mops_ok grow ms (upd vs d (v_write v (firstn n (skipn o (nth a ms []))))) ops end
  | DSum d a o n :: ops =>
      in_bounds ms a o n /\
      match nth_error vs d with
      | None => True
      | Some v => match v_sum v with Ok (v, b) => mops_ok grow (fst (append grow ms (cut ms a o n) b)) (upd vs d v) ops | _ => True end
      end
  | DNum d :: ops => match nth_error vs d with
                     | None => True
                     | Some v => match v_num v with Ok (v, _) => mops_ok grow ms (upd vs d v) ops | _ => True end
                     end
  | DReset d :: ops => match nth_error vs d with None => True | Some v => mops_ok grow ms (upd vs d (v_reset v)) ops end
  | DCopy d :: ops => match nth_error vs d with Some v => mops_ok grow ms (vs ++ [v]) ops | None => True end
  end.
Definition no_copy (op : mop) : Prop := match op with DCopy _ => False | _ => True end.

(** Programs in which, of a digest and its copies, at most one is written to after the copying:
    [fl] marks those that must not be, until the next Reset.  At a copy either of the two may be
    the one. *)
Fixpoint one_writer (fl : list bool) (ops : list mop) : Prop :=
  match ops with
  | [] => True
  | DNew _ :: ops | DSip _ _ _ _ :: ops => one_writer (fl ++ [false]) ops
  | DWrite d _ _ _ :: ops => nth d fl false = false /\ one_writer fl ops
  | DReset d :: ops => one_writer (upd fl d false) ops
  | DCopy d :: ops => one_writer (fl ++ [true]) ops \/ (nth d fl false = false /\ one_writer (upd fl d true ++ [false]) ops)
  | _ :: ops => one_writer fl ops
  end.
