(** Independent description of the hash of gomap: words are mixed by xor with a multiple,
    rotation and multiplication; long keys run four lanes over whole blocks of four words
    and the lanes are then combined; the rest of the key gives a short list of words that
    may overlap. *)
From Verif Require Import Words Mm3Spec.
Open Scope N_scope.

Record variant := { W : N; nb : nat; m1 : N; m2 : N; m3 : N; m4 : N; r1 : N; r2 : N }.
Definition v32 : variant := {| W := 32; nb := 4; m1 := 3168982561; m2 := 3339683297; m3 := 832293441; m4 := 2336365089; r1 := 15; r2 := 11 |}.
Definition v64 : variant := {| W := 64; nb := 8; m1 := 16877499708836156737; m2 := 2820277070424839065; m3 := 9497967016996688599; m4 := 15839092249703872147; r1 := 31; r2 := 27 |}.

Definition inject (V : variant) (h w : N) : N := N.lxor h ((w * m1 V) mod 2 ^ W V).
Definition lane (V : variant) (h w : N) : N := (rol (W V) (inject V h w) (r1 V) * m2 V) mod 2 ^ W V.
(** The last word is only injected. *)
Fixpoint inject_all (V : variant) (h : N) (ws : list N) : N :=
  match ws with
  | [] => h
  | [w] => inject V h w
  | w :: ws => inject_all V (rol (W V) (lane V h w) (r2 V)) ws
  end.
Definition at_ (k : list N) (i n : nat) : N := le_int (firstn n (skipn i k)).
Definition three (k : list N) : N := nth 0 k 0 + 256 * nth (length k / 2) k 0 + 65536 * nth (length k - 1) k 0.
(** The words of a rest of fewer than (or exactly) four words. *)
Definition rest32 (k : list N) : list N :=
  let s := length k in
  if (s =? 0)%nat then [] else if (s <? 4)%nat then [three k] else if (s =? 4)%nat then [at_ k 0 4]
  else if (s <=? 8)%nat then [at_ k 0 4; at_ k (s - 4) 4]
  else [at_ k 0 4; at_ k 4 4; at_ k (s - 8) 4; at_ k (s - 4) 4].
Definition rest64 (k : list N) : list N :=
  let s := length k in
  if (s =? 0)%nat then [] else if (s <? 4)%nat then [three k]
  else if (s <=? 8)%nat then [at_ k 0 4 + 2 ^ 32 * at_ k (s - 4) 4]
  else if (s <=? 16)%nat then [at_ k 0 8; at_ k (s - 8) 8]
  else [at_ k 0 8; at_ k 8 8; at_ k (s - 16) 8; at_ k (s - 8) 8].
Definition lanes (V : variant) (v : list N) (b : list N) : list N :=
  map (fun i => lane V (nth i v 0) (at_ b (nb V * i) (nb V))) [0; 1; 2; 3]%nat.
Definition combine4 (V : variant) (v : list N) : N :=
  let r i := rol (W V) (nth i v 0) (r2 V) in
  (r 0%nat * m1 V + r 1%nat * m2 V + r 2%nat * m3 V + r 3%nat * m4 V) mod 2 ^ W V.
Definition start (V : variant) (k : list N) (seed : N) : N := (seed + N.of_nat (length k)) mod 2 ^ W V.
Definition body (V : variant) (rest : list N -> list N) (k : list N) (h : N) : N :=
  if (length k <=? 4 * nb V)%nat then inject_all V h (rest k)
  else let '(bs, r) := blocks (4 * nb V) k in
       inject_all V (combine4 V (fold_left (lanes V) bs [h; (h + m1 V) mod 2 ^ W V; (h + m2 V) mod 2 ^ W V; (h + m3 V) mod 2 ^ W V])) (rest r).
Definition finish32 (h : N) : N :=
  xsr 16 ((xsr 13 ((xsr 17 h * m3 v32) mod 2 ^ 32) * m4 v32) mod 2 ^ 32).
Definition finish64 (h : N) : N :=
  xsr 32 ((xsr 29 ((xsr 33 h * m2 v64) mod 2 ^ 64) * m3 v64) mod 2 ^ 64).
Definition gomap32 (k : list N) (seed : N) : N := finish32 (body v32 rest32 k (start v32 k seed)).
Definition gomap64 (k : list N) (seed : N) : N := finish64 (body v64 rest64 k (start v64 k seed)).
