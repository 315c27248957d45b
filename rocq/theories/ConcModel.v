(** Hashf called from several goroutines (hashf/hashf.go:251-521).  Every case of the switch is
    cut into the steps in which it touches the package's variables; goroutines take turns step by
    step, in any order (sequential consistency).  Simplified: a method of a digest object (Reset,
    Write, Sum) and the assignment of eight bytes of the siphash key are one step each.  A program
    that goes wrong with these steps goes wrong with smaller ones too; the programs that are shown
    to be right have no two steps on the same variable in a race. *)
From Coq Require Import NArith ZArith List Arith String.
From Verif Require Import Words ListLemmas Mem Mm3Model KeccakModel HashfModel.
From Verif Require GomapModel SmallModel JenkinsModel SpookyModel FarmModel MetroModel SipModel.
Import ListNotations.
Open Scope N_scope.

(** The variables of the package: Hf2 (hashf.go:56), t, l, b, c (251-254), the bytes written since
    the last Reset to the digests of other packages (36-49), the rest as in [world]; and a mutex of
    the program. *)
Record shared := mkShared { hf2 : string; lock : bool; gt : N; gl : N; gb : N; gc : N; acc : string -> list N; vars : world }.
(** Assignments to single variables (hashf.go:256-521). *)
Definition set_hf2 s x := mkShared x (lock s) (gt s) (gl s) (gb s) (gc s) (acc s) (vars s).
Definition set_lock s x := mkShared (hf2 s) x (gt s) (gl s) (gb s) (gc s) (acc s) (vars s).
Definition set_t s x := mkShared (hf2 s) (lock s) x (gl s) (gb s) (gc s) (acc s) (vars s).
Definition set_l s x := mkShared (hf2 s) (lock s) (gt s) x (gb s) (gc s) (acc s) (vars s).
Definition set_b s x := mkShared (hf2 s) (lock s) (gt s) (gl s) x (gc s) (acc s) (vars s).
Definition set_c s x := mkShared (hf2 s) (lock s) (gt s) (gl s) (gb s) x (acc s) (vars s).
Definition set_vars s x := mkShared (hf2 s) (lock s) (gt s) (gl s) (gb s) (gc s) (acc s) x.
Definition set_acc s n x := mkShared (hf2 s) (lock s) (gt s) (gl s) (gb s) (gc s) (fun m => if (m =? n)%string then x else acc s m) (vars s).

(** A step changes the variables and the values the goroutine holds in registers (parts of the
    statements of hashf.go:256-521). *)
Definition step := shared -> list N -> res (shared * list N).
(** Steps that compute from the key (read from memory), that assign, that read (hashf.go:256-521). *)
Definition compute (k : slice) (f : list N -> res (list N)) : step :=
  fun s r => r <~ f (read (mem (vars s)) k) ;; Ok (s, r).
Definition assign (f : shared -> list N -> shared) : step := fun s r => Ok (f s r, r).
Definition change (f : world -> res world) : step := fun s r => w <~ f (vars s) ;; Ok (set_vars s w, r).
Definition look (f : shared -> list N -> res (list N)) : step := fun s r => r <~ f s r ;; Ok (s, r).
(** The i-th value held (hashf.go:256-521). *)
Definition reg (i : nat) (r : list N) : N := nth i r 0.

(** A call: the steps up to the last assignment to a variable, and the steps after it; the result
    is the first register at the end (hashf.go:256-521). *)
Definition code := (list step * list step)%type.
(** Cases without variables of the package: hashf.go:258-263, 270-281, 287-293, 303-324 and most of
    336-366. *)
Definition local (k : slice) (f : list N -> res N) : code :=
  ([], [compute k (fun kb => h <~ f kb ;; Ok [h])]).
(** t, l = ...; h = t ^ l: hashf.go:325-327, 349-351, 360-362, 367-369. *)
Definition via_tl (k : slice) (f : list N -> res (N * N)) : code :=
  ([compute k (fun kb => '(x, y) <~ f kb ;; Ok [x; y]); assign (fun s r => set_t s (reg 0 r)); assign (fun s r => set_l s (reg 1 r))],
   [look (fun s _ => Ok [gt s]); look (fun s r => Ok [xor (reg 0 r) (gl s)])]).
(** fp = fp[0:0]; d.Reset(); d.Write(k); fp = d.Sum(fp); h from fp: hashf.go:401-410, 482-489, 491-498;
    the digest of another package; [get] and [put] are the buffer. *)
Definition via_ext (grow : nat -> nat -> nat) (k : slice) (n : string) (digest : list N -> list N)
    (get : world -> slice) (put : world -> heap -> slice -> world) : code :=
  ([assign (fun s r => set_vars s (put (vars s) (mem (vars s)) (upto (get (vars s)) 0)));
    assign (fun s r => set_acc s n []);
    assign (fun s r => set_acc s n (acc s n ++ read (mem (vars s)) k));
    assign (fun s r => let '(m, fp) := append grow (mem (vars s)) (get (vars s)) (digest (acc s n)) in set_vars s (put (vars s) m fp))],
   [look (fun s _ => h <~ be8 (read (mem (vars s)) (get (vars s))) ;; Ok [h])]).
(** sha1: hashf.go:500-515; the buffer is emptied after the Write. *)
Definition via_sha1 (grow : nat -> nat -> nat) (k : slice) (digest : list N -> list N) : code :=
  ([assign (fun s r => set_acc s "sha1" []);
    assign (fun s r => set_acc s "sha1" (acc s "sha1" ++ read (mem (vars s)) k));
    assign (fun s r => set_vars s (set_mem_fp20 (vars s) (mem (vars s)) (upto (fp20 (vars s)) 0)));
    assign (fun s r => let '(m, fp) := append grow (mem (vars s)) (fp20 (vars s)) (digest (acc s "sha1"%string)) in set_vars s (set_mem_fp20 (vars s) m fp))],
   [look (fun s _ => h <~ be8 (read (mem (vars s)) (fp20 (vars s))) ;; Ok [h])]).
(** The same for a keccakpg object: hashf.go:411-417, 418-424, 425-431, 432-447. *)
Definition via_pg (grow : nat -> nat -> nat) (k : slice) (get : world -> slice) (put : world -> heap -> slice -> world)
    (getd : world -> keccak) (putd : world -> keccak -> world) : code :=
  ([assign (fun s r => set_vars s (put (vars s) (mem (vars s)) (upto (get (vars s)) 0)));
    assign (fun s r => set_vars s (putd (vars s) (Reset (getd (vars s)))));
    change (fun w => '(m, d, n) <~ Write grow (S (len k)) (mem w) (getd w) k ;; Ok (putd (put w m (get w)) d));
    change (fun w => '(m, fp) <~ Sum grow (mem w) (getd w) (get w) ;; Ok (put w m fp))],
   [look (fun s _ => h <~ be8 (read (mem (vars s)) (get (vars s))) ;; Ok [h])]).

(** The cases of Hashf, hashf.go:256-521, in the order of the source. *)
Definition hashf_code (e : ext) (grow : nat -> nat -> nat) (name : string) (k : slice) (seed : N) : code :=
  let n := Z.of_nat (len k) in
  let seed32 := wrap 32 seed in
  (if name =? "perfecthash" then
     local k (fun kb => k3 <~ idx kb 3 ;; k2 <~ idx kb 2 ;; k1 <~ idx kb 1 ;; k0 <~ idx kb 0 ;;
             Ok (N.lor (N.lor (N.lor (shl64 k3 24) (shl64 k2 16)) (shl64 k1 8)) (shl64 k0 0)))
   else if name =? "nullhash" then
     ([assign (fun s r => set_vars s (set_nh (vars s) (SmallModel.null_Reset (nh (vars s)))));
       assign (fun s r => set_vars s (set_nh (vars s) (fst (SmallModel.null_Write (nh (vars s)) (read (mem (vars s)) k)))));
       fun s r => let '(c, h) := SmallModel.null_Sum64 (nh (vars s)) in Ok (set_vars s (set_nh (vars s) c), [h])], [])
   else if name =? "nullhashF64ns" then
     ([fun s r => let '(c, h) := SmallModel.null_Hash64S (nhf64 (vars s)) (read (mem (vars s)) k) 0 in
                  Ok (set_vars s (set_nhf64 (vars s) c), [h])], [])
   else if name =? "gomap64" then local k (fun kb => GomapModel.Hash64 kb seed)
   else if name =? "gomap32" then local k (fun kb => GomapModel.Hash32 kb seed32)
   else if name =? "aeshash64" then local k (fun kb => Ok (aes_Hash e kb seed))
   else if name =? "aeshash32I" then
     local k (fun kb => k0 <~ idx kb 0 ;; k1 <~ idx kb 1 ;; k2 <~ idx kb 2 ;; k3 <~ idx kb 3 ;;
             Ok (aes_Hash64 e (N.lor (N.lor (N.lor (shl64 k0 24) (shl64 k1 16)) (shl64 k2 8)) (shl64 k3 0)) seed))
   else if name =? "aeshash64I" then local k (fun kb => x <~ be8 kb ;; Ok (aes_Hash64 e x seed))
   else if name =? "adler32" then
     ([assign (fun s r => set_acc s "adler32" []);
       assign (fun s r => set_acc s "adler32" (acc s "adler32" ++ read (mem (vars s)) k))],
      [look (fun s _ => Ok [adler32 e (acc s "adler32")])])
   else if name =? "sbox" then local k (fun kb => SmallModel.Sbox kb seed32)
   else if name =? "CrapWow" then local k (fun kb => SmallModel.CrapWow kb seed32)
   else if name =? "MaHash8v64" then local k (fun kb => SmallModel.MaHash8v64 kb)
   else if name =? "j364" then
     ([compute k (fun kb => '(c, b) <~ JenkinsModel.jenkins364 kb n seed32 seed32 ;; Ok [c; b]);
       assign (fun s r => set_c s (reg 0 r)); assign (fun s r => set_b s (reg 1 r))],
      [look (fun s _ => Ok [gb s]); look (fun s r => Ok [N.lor (shl64 (reg 0 r) 32) (gc s)])])
   else if name =? "j332c" then
     ([compute k (fun kb => '(c, _) <~ JenkinsModel.jenkins364 kb n seed32 seed32 ;; Ok [c]); assign (fun s r => set_c s (reg 0 r))],
      [look (fun s _ => Ok [gc s])])
   else if name =? "j332b" then
     ([compute k (fun kb => '(_, b) <~ JenkinsModel.jenkins364 kb n seed32 seed32 ;; Ok [b]); assign (fun s r => set_b s (reg 0 r))],
      [look (fun s _ => Ok [gb s])])
   else if name =? "j232" then local k (fun kb => JenkinsModel.hash232 kb seed32)
   else if name =? "j264" then local k (fun kb => JenkinsModel.hash264 kb seed)
   else if name =? "j264l" then local k (fun kb => h <~ JenkinsModel.hash264 kb seed ;; Ok (N.land h 0xFFFFFFFF))
   else if name =? "j264h" then local k (fun kb => h <~ JenkinsModel.hash264 kb seed ;; Ok (N.land (shr h 32) 0xFFFFFFFF))
   else if name =? "j264xor" then
     local k (fun kb => h <~ JenkinsModel.hash264 kb seed ;;
             Ok (xor (wrap 32 (N.land h 0xFFFFFFFF)) (wrap 32 (N.land (shr h 32) 0xFFFFFFFF))))
   else if name =? "spooky32" then local k (fun kb => SpookyModel.spooky_hash32 kb seed32)
   else if name =? "spooky64" then local k (fun kb => SpookyModel.spooky_hash64 kb seed)
   else if name =? "spooky128h" then local k (fun kb => first (SpookyModel.spooky_hash128 kb seed))
   else if name =? "spooky128l" then local k (fun kb => second (SpookyModel.spooky_hash128 kb seed))
   else if name =? "spooky128xor" then via_tl k (fun kb => SpookyModel.spooky_hash128 kb seed)
   else if name =? "murmur332" then
     ([assign (fun s r => set_vars s (set_m332 (vars s) (mm_reset 0 (m332 (vars s)))));
       assign (fun s r => set_vars s (set_m332 (vars s) (fst (mm_write32 (m332 (vars s)) (read (mem (vars s)) k)))))],
      [look (fun s _ => Ok [mm_dsum32 (m332 (vars s))])])
   else if name =? "murmur364" then
     ([assign (fun s r => set_vars s (set_m364 (vars s) (mm_reset (0, 0) (m364 (vars s)))));
       assign (fun s r => set_vars s (set_m364 (vars s) (fst (mm_write128 (m364 (vars s)) (read (mem (vars s)) k)))))],
      [look (fun s _ => Ok [mm_dsum64 (m364 (vars s))])])
   else if name =? "siphash64" then local k (fun kb => Ok (SipModel.sip_hash 0 0 kb))
   else if name =? "siphash64pg" then
     ([assign (fun s r => set_vars s (set_seeds (vars s) (firstn 8 (sipSeedSet seed) ++ skipn 8 (seeds (vars s)))));
       assign (fun s r => set_vars s (set_seeds (vars s) (firstn 8 (seeds (vars s)) ++ firstn 8 (seeds (vars s)))))],
      [look (fun s _ => match SipModel.pg_siphash (read (mem (vars s)) k) (seeds (vars s)) 2 4 false with
                        | Some (h, _) => Ok [h] | None => Panics end)])
   else if name =? "FarmHash32" then local k (fun kb => h <~ FarmModel.farm_hash32 kb ;; Ok (N.land h 0xFFFFFFFF))
   else if name =? "FarmHash64" then local k (fun kb => FarmModel.farm_hash64 kb)
   else if name =? "FarmHash128-high" then local k (fun kb => first (FarmModel.farm_hash128 kb))
   else if name =? "FarmHash128-low" then local k (fun kb => second (FarmModel.farm_hash128 kb))
   else if name =? "FarmHash128-xor" then via_tl k (fun kb => FarmModel.farm_hash128 kb)
   else if name =? "MetroHash64-1" then local k (fun kb => MetroModel.hash64_1 kb seed32)
   else if name =? "MetroHash64-2" then local k (fun kb => MetroModel.hash64_2 kb seed32)
   else if name =? "MetroHash128-1h" then local k (fun kb => first (MetroModel.hash128_1 kb seed32))
   else if name =? "MetroHash128-1l" then local k (fun kb => second (MetroModel.hash128_1 kb seed32))
   else if name =? "MetroHash128-1xor" then via_tl k (fun kb => MetroModel.hash128_1 kb seed32)
   else if name =? "MetroHash128-2h" then local k (fun kb => first (MetroModel.hash128_2 kb seed32))
   else if name =? "MetroHash128-2l" then local k (fun kb => second (MetroModel.hash128_2 kb seed32))
   else if name =? "MetroHash128-2xor" then via_tl k (fun kb => MetroModel.hash128_2 kb seed32)
   else if name =? "keccak224" then via_ext grow k "keccak224" (keccak224 e) fp28 set_mem_fp28
   else if name =? "keccakpg643" then via_pg grow k fp8 set_mem_fp8 k643 set_k643
   else if name =? "keccakpg644" then via_pg grow k fp8 set_mem_fp8 k644 set_k644
   else if name =? "keccakpg648" then via_pg grow k fp8 set_mem_fp8 k648 set_k648
   else if name =? "keccakpg160" then via_pg grow k fp32 set_mem_fp32 k160 set_k160
   else if name =? "whirlpool" then via_ext grow k "whirlpool" (whirlpool e) fp64 set_mem_fp64
   else if name =? "blake2b" then via_ext grow k "blake2b" (blake2b e) fp32 set_mem_fp32
   else if name =? "sha1" then via_sha1 grow k (sha1 e)
   else ([fun _ _ => Panics], []))%string.

(** What a goroutine does: take and release the mutex, set Hf2, overwrite bytes of an array, call
    Hashf (clients of hashf.go:56, 256). *)
Inductive top := TLock | TUnlock | TName (n : string) | TWrite (a o : nat) (bs : list N) | THash (k : slice) (seed : N).
(** A goroutine: what is left of its program, the steps left of the call it is in with its
    registers, the results so far (clients of hashf.go:56, 256). *)
Record thread := mkThread { prog : list top; run : option (list step * list N); results : list N }.
(** One step of a goroutine.  Waiting for the mutex is a step without effect; unlocking an
    unlocked mutex ends the program, as any panic does (clients of hashf.go:56, 256). *)
Definition tstep (e : ext) (grow : nat -> nat -> nat) (s : shared) (t : thread) : res (shared * thread) :=
  match run t with
  | Some (c :: cs, r) => '(s, r) <~ c s r ;; Ok (s, mkThread (prog t) (Some (cs, r)) (results t))
  | Some ([], r) => Ok (s, mkThread (prog t) None (results t ++ [reg 0 r]))
  | None =>
      match prog t with
      | [] => Ok (s, t)
      | TLock :: p => if lock s then Ok (s, t) else Ok (set_lock s true, mkThread p None (results t))
      | TUnlock :: p => if lock s then Ok (set_lock s false, mkThread p None (results t)) else Panics
      | TName n :: p => Ok (set_hf2 s n, mkThread p None (results t))
      | TWrite a o bs :: p => Ok (set_vars s (withMem (vars s) (store (mem (vars s)) a o bs)), mkThread p None (results t))
      | THash k seed :: p => Ok (s, mkThread p (Some (let '(c1, c2) := hashf_code e grow (hf2 s) k seed in c1 ++ c2, [])) (results t))
      end
  end.
(** An execution: [sched] says which goroutine moves at each step (clients of hashf.go:56, 256). *)
Fixpoint conc_run (e : ext) (grow : nat -> nat -> nat) (sched : list nat) (s : shared) (ts : list thread) : res (shared * list thread) :=
  match sched with
  | [] => Ok (s, ts)
  | i :: sched =>
      match nth_error ts i with
      | None => conc_run e grow sched s ts
      | Some t => '(s, t) <~ tstep e grow s t ;; conc_run e grow sched s (upd ts i t)
      end
  end.
(** Before the first step (clients of hashf.go:56, 256); [w] the variables, [name] what Hf2 holds. *)
Definition conc_start (name : string) (w : world) : shared := mkShared name false 0 0 0 0 (fun _ => []) w.
(** Goroutines before their first step (clients of hashf.go:56, 256). *)
Definition threads (ps : list (list top)) : list thread := map (fun p => mkThread p None []) ps.
