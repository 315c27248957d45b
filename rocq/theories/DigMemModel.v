(** The digests of packages jenkins, murmur3 and siphash in memory: the pending bytes of the first
    two are slices, and Write, Sum use append and copy on them; siphash has an array in the object. *)
From Coq Require Import NArith ZArith List Arith.
From Verif Require Import Words ListLemmas Blocks Mem KeccakModel SipModel JenkinsModel Mm3Model.
Import ListNotations.
Open Scope N_scope.

(** State332, State364, State232 (jenkins.go:826-862) with the slice [tail] in memory; the other
    fields as in JenkinsModel.v. *)
Record j332 := mkJ3 { j3_hash : N; j3_seed : N; j3_pc : N; j3_pb : N; j3_tail : slice }.
Record j364 := mkJ6 { j6_hash : N; j6_seed : N; j6_pc : N; j6_pb : N; j6_tail : slice }.
Record j232 := mkJ2 { j2_hash : N; j2_seed : N; j2_tail : slice }.
(** The same with the bytes the slice has now
    (State332c, State364, State232, jenkins.go:826-862). *)
Definition load3 (m : heap) (d : j332) : st332 := mk332 (j3_hash d) (j3_seed d) (j3_pc d) (j3_pb d) (read m (j3_tail d)).
Definition load6 (m : heap) (d : j364) : st364 := mk364 (j6_hash d) (j6_seed d) (j6_pc d) (j6_pb d) (read m (j6_tail d)).
Definition load2 (m : heap) (d : j232) : st232 := mk232 (j2_hash d) (j2_seed d) (read m (j2_tail d)).

(** digest, murmur3/murmur.go:25-30, and the registers of digest32 or digest128: [tail] is a
    slice, usually of the array [buf], which lies at address [mm_buf]. *)
Record mmobj (S : Type) := mkMmo { mm_clen : N; mm_tl : slice; mm_buf : nat; mm_h : S }.
Arguments mkMmo {S}. Arguments mm_clen {S}. Arguments mm_tl {S}. Arguments mm_buf {S}. Arguments mm_h {S}.
Definition loadm {S} (m : heap) (d : mmobj S) : mdigest S := mkMm (mm_clen d) (len (mm_tl d)) (array m (mm_buf d)) (mm_h d).

(** Write, murmur.go:34-59; [absorb] is bmix, which returns p[nblocks*Size:]. *)
Definition mmo_write {S} (grow : nat -> nat -> nat) (B : nat) (f : S -> list N -> S) (m : heap) (d : mmobj S) (p : slice) : heap * mmobj S :=
  let clen := mm_clen d + N.of_nat (len p) in
  let t := mm_tl d in
  let '(m, h, p) :=
    if Nat.ltb 0 (len t) then
      let nfree := (B - len t)%nat in
      if Nat.ltb nfree (len p) then
        let '(m, block) := append grow m t (read m (upto p nfree)) in
        let p := from p nfree in
        let '(h, _) := absorb B f (mm_h d) (read m block) in
        (m, h, p)
      else
        let '(m, p) := append grow m t (read m p) in (m, mm_h d, p)
    else (m, mm_h d, p) in
  let '(h, rest) := absorb B f h (read m p) in
  let tail := from p (len p - length rest) in
  let nn := Nat.min (length (array m (mm_buf d))) (len tail) in
  (store m (mm_buf d) 0 (firstn nn (read m tail)), mkMmo clen (mkSlice (mm_buf d) 0 nn (length (array m (mm_buf d)))) (mm_buf d) h).

(** The digest objects: New332c, New364, New232, murmur3's New32, New64, New128 and siphash's New, New128
    (jenkins.go:874-887, 969-974, 1059-1064, murmur32.go:27-32, murmur64.go:17-20, murmur128.go:34-39,
    siphash.go:25-59).  The array x of a siphash digest (siphash.go:30) is part of the object and no
    slice of it leaves the package, so it is kept in the object as in SipModel.v. *)
Inductive obj := J3 (d : j332) | J6 (d : j364) | J2 (d : j232) | M4 (d : mmobj N) | M8 (d : mmobj (N * N)) | M16 (d : mmobj (N * N)) | SP (d : sip_digest).
Inductive kind := K332 (seed : N) | K364 (seed : N) | K232 (seed : N) | K32 | K64 | K128.

(** jenkins.go:874-887, 969-974, 1059-1064; murmur32.go:27-32, murmur64.go:17-20,
    murmur128.go:34-39: Reset included; a murmur3 object brings its array. *)
Definition obj_new (m : heap) (k : kind) : heap * obj :=
  let mm {S} (h0 : S) : mmobj S := mkMmo 0 nil_slice (length m) h0 in
  match k with
  | K332 s => (m, J3 (mkJ3 0 s s s nil_slice))
  | K364 s => (m, J6 (mkJ6 0 s (wrap 32 s) (wrap 32 (shr s 32)) nil_slice))
  | K232 s => (m, J2 (mkJ2 0 0 nil_slice))
  | K32 => (m ++ [repeat 0 16], M4 (mm 0))
  | K64 => (m ++ [repeat 0 16], M8 (mm (0, 0)))
  | K128 => (m ++ [repeat 0 16], M16 (mm (0, 0)))
  end.
(** Write: jenkins.go:923-928, 1001-1006, 1090-1095; murmur.go:34-59; siphash.go:132-156. *)
Definition obj_write (grow : nat -> nat -> nat) (m : heap) (o : obj) (p : slice) : heap * obj :=
  match o with
  | J3 d => let '(m, t) := append grow m (j3_tail d) (read m p) in (m, J3 (mkJ3 (j3_hash d) (j3_seed d) (j3_pc d) (j3_pb d) t))
  | J6 d => let '(m, t) := append grow m (j6_tail d) (read m p) in (m, J6 (mkJ6 (j6_hash d) (j6_seed d) (j6_pc d) (j6_pb d) t))
  | J2 d => let '(m, t) := append grow m (j2_tail d) (read m p) in (m, J2 (mkJ2 (j2_hash d) (j2_seed d) t))
  | M4 d => let '(m, d) := mmo_write grow 4 mm32_block m d p in (m, M4 d)
  | M8 d => let '(m, d) := mmo_write grow 16 mm128_block m d p in (m, M8 d)
  | M16 d => let '(m, d) := mmo_write grow 16 mm128_block m d p in (m, M16 d)
  | SP d => (m, SP (sip_write_d d (read m p)))
  end.
(** The bytes Sum appends: jenkins.go:931-936, 1009-1014, 1098-1102; murmur32.go:38-41,
    murmur64.go:22-27, murmur128.go:45-54; siphash.go:424-457. *)
Definition obj_sum (m : heap) (o : obj) : res (obj * list N) :=
  match o with
  | J3 d => '(s, b) <~ sum_332 (load3 m d) [] ;; Ok (J3 (mkJ3 (s332_hash s) (s332_seed s) (s332_pc s) (s332_pb s) (j3_tail d)), b)
  | J6 d => '(s, b) <~ sum_364 (load6 m d) [] ;; Ok (J6 (mkJ6 (s364_hash s) (s364_seed s) (s364_pc s) (s364_pb s) (j6_tail d)), b)
  | J2 d => '(s, b) <~ sum_232 (load2 m d) [] ;; Ok (J2 (mkJ2 (s232_hash s) (s232_seed s) (j2_tail d)), b)
  | M4 d => Ok (o, mm_sum_bytes32 (loadm m d) [])
  | M8 d => Ok (o, mm_sum_bytes64 (loadm m d) [])
  | M16 d => Ok (o, mm_sum_bytes128 (loadm m d) [])
  | SP d => Ok (o, sip_sum d [])
  end.
(** Sum32, Sum64, Sum128: jenkins.go:939-943, 1023-1027, 1105-1108; murmur32.go:63-92,
    murmur64.go:29-32, murmur128.go:86-162; siphash.go:158-248. *)
Definition obj_num (m : heap) (o : obj) : res (obj * list N) :=
  match o with
  | J3 d => '(s, h) <~ sum32_332 (load3 m d) ;; Ok (J3 (mkJ3 (s332_hash s) (s332_seed s) (s332_pc s) (s332_pb s) (j3_tail d)), [h])
  | J6 d => '(s, h) <~ sum64_364 (load6 m d) ;; Ok (J6 (mkJ6 (s364_hash s) (s364_seed s) (s364_pc s) (s364_pb s) (j6_tail d)), [h])
  | J2 d => '(s, h) <~ sum32_232 (load2 m d) ;; Ok (J2 (mkJ2 (s232_hash s) (s232_seed s) (j2_tail d)), [h])
  | M4 d => Ok (o, [mm_dsum32 (loadm m d)])
  | M8 d => Ok (o, [mm_dsum64 (loadm m d)])
  | M16 d => Ok (o, [fst (mm_dsum128 (loadm m d)); snd (mm_dsum128 (loadm m d))])
  | SP d => Ok (o, [sip_sum64 d])
  end.
(** Reset: jenkins.go:915-920, 993-998, 1083-1087; murmur.go:61-65; siphash.go:61-71. *)
Definition obj_reset (o : obj) : obj :=
  match o with
  | J3 d => J3 (mkJ3 (j3_hash d) (j3_seed d) (j3_seed d) (j3_seed d) nil_slice)
  | J6 d => J6 (mkJ6 (j6_hash d) (j6_seed d) (wrap 32 (j6_seed d)) (wrap 32 (shr (j6_seed d) 32)) nil_slice)
  | J2 d => J2 (mkJ2 (j2_hash d) 0 nil_slice)
  | M4 d => M4 (mkMmo 0 nil_slice (mm_buf d) 0)
  | M8 d => M8 (mkMmo 0 nil_slice (mm_buf d) (0, 0))
  | M16 d => M16 (mkMmo 0 nil_slice (mm_buf d) (0, 0))
  | SP d => SP (sip_reset d)
  end.

(** Programs with several digests.  Arrays and digests are named by the order in which the
    program gets them; Sum(b) may give it a new array.  [DSip] is siphash.New or New128 with a slice
    of the program as the key.  [DCopy] is d2 := *d1 for the exported structs of package jenkins
    (clients of jenkins.go:874-1110, murmur.go:34-65, siphash.go:50-59). *)
Inductive mop :=
| DAlloc (bs : list N) | DAssign (a o : nat) (bs : list N)
| DNew (k : kind) | DSip (size a o n : nat) | DWrite (d a o n : nat) | DSum (d a o n : nat) | DNum (d : nat) | DReset (d : nat) | DCopy (d : nat).
(** A slice expression of the client, as b[o:o+n] at smhasher.go:155. *)
Definition cut (m : heap) (x o n : nat) : slice := mkSlice x o n (length (array m x) - o).
(** The results of the Sum calls and the arrays of the program at the end
    (clients of jenkins.go:874-1110, murmur.go:34-65, siphash.go:50-59). *)
Fixpoint mem_run (grow : nat -> nat -> nat) (m : heap) (own : list nat) (ds : list obj) (ops : list mop)
    : res (list (list N) * list (list N)) :=
  match ops with
  | [] => Ok ([], map (array m) own)
  | DAlloc bs :: ops => mem_run grow (m ++ [bs]) (own ++ [length m]) ds ops
  | DAssign a o bs :: ops => mem_run grow (store m (nth a own 0%nat) o bs) own ds ops
  | DNew k :: ops => let '(m, d) := obj_new m k in mem_run grow m own (ds ++ [d]) ops
  | DSip size a o n :: ops =>
      match sip_new_digest size (read m (cut m (nth a own 0%nat) o n)) with
      | None => Panics
      | Some d => mem_run grow m own (ds ++ [SP d]) ops
      end
  | DWrite d a o n :: ops =>
      match nth_error ds d with
      | None => Panics
      | Some x => let '(m, x) := obj_write grow m x (cut m (nth a own 0%nat) o n) in mem_run grow m own (upd ds d x) ops
      end
  | DSum d a o n :: ops =>
      match nth_error ds d with
      | None => Panics
      | Some x =>
          '(x, b) <~ obj_sum m x ;;
          let '(m', s) := append grow m (cut m (nth a own 0%nat) o n) b in
          let own := if Nat.ltb (length m) (length m') then own ++ [length m] else own in
          '(out, ms) <~ mem_run grow m' own (upd ds d x) ops ;; Ok (read m' s :: out, ms)
      end
  | DNum d :: ops =>
      match nth_error ds d with
      | None => Panics
      | Some x => '(x, b) <~ obj_num m x ;; '(out, ms) <~ mem_run grow m own (upd ds d x) ops ;; Ok (b :: out, ms)
      end
  | DReset d :: ops =>
      match nth_error ds d with None => Panics | Some x => mem_run grow m own (upd ds d (obj_reset x)) ops end
  | DCopy d :: ops =>
      match nth_error ds d with
      | Some (J3 x) => mem_run grow m own (ds ++ [J3 x]) ops
      | Some (J6 x) => mem_run grow m own (ds ++ [J6 x]) ops
      | Some (J2 x) => mem_run grow m own (ds ++ [J2 x]) ops
      | _ => Panics
      end
  end.
