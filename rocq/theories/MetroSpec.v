(** Independent specification of MetroHash (J. Andrew Rogers' metrohash64.cpp and
    metrohash128.cpp) on the words of Words.v.  The message is cut into blocks of
    32 bytes; the rest is cut into pieces of 16, 8, 4, 2 and 1 bytes. *)
From Verif Require Import Words Mm3Spec.
Open Scope N_scope.

(** A piece of [n] bytes off the front, when there are at least [t] bytes. *)
Definition piece (t n : nat) (r : list N) : option (list N) * list N :=
  if (t <=? length r)%nat then (Some (firstn n r), skipn n r) else (None, r).
Definition opt {A} (p : option (list N)) (f : list N -> A -> A) (a : A) : A :=
  match p with Some b => f b a | None => a end.

(** The message dependent part of a block: four words. *)
Definition word_at (b : list N) (i : nat) : N := le_load (firstn 8 (skipn (8 * i) b)).
Definition m_body (K0 K1 K2 K3 : N) (v : N * N * N * N) (b : list N) : N * N * N * N :=
  let '(v0, v1, v2, v3) := v in
  let v0 := add64 (rotr64 (add64 v0 (mul64 (word_at b 0) K0)) 29) v2 in
  let v1 := add64 (rotr64 (add64 v1 (mul64 (word_at b 1) K1)) 29) v3 in
  let v2 := add64 (rotr64 (add64 v2 (mul64 (word_at b 2) K2)) 29) v0 in
  let v3 := add64 (rotr64 (add64 v3 (mul64 (word_at b 3) K3)) 29) v1 in
  (v0, v1, v2, v3).
Definition m_mix (K0 K1 r1 r2 r3 r4 : N) (v : N * N * N * N) : N * N :=
  let '(v0, v1, v2, v3) := v in
  let v2 := xor v2 (mul64 (rotr64 (add64 (mul64 (add64 v0 v3) K0) v1) r1) K1) in
  let v3 := xor v3 (mul64 (rotr64 (add64 (mul64 (add64 v1 v2) K1) v0) r2) K0) in
  let v0 := xor v0 (mul64 (rotr64 (add64 (mul64 (add64 v0 v2) K0) v3) r3) K1) in
  let v1 := xor v1 (mul64 (rotr64 (add64 (mul64 (add64 v1 v3) K1) v2) r4) K0) in
  (v0, v1).

(** ** 64 bits *)
Record metro64_params := {
  K0 : N; K1 : N; K2 : N; K3 : N;
  rmix : N;                                        (* rotation after the blocks *)
  ma : N; mb : N; na : N; nb : N; r16 : N; q16 : N; (* the 16 byte piece *)
  r8 : N; r4 : N; r2 : N; r1 : N;                  (* the smaller pieces *)
  f1 : N; f2 : N }.                                (* the finaliser *)
Definition p64_1 : metro64_params :=
  {| K0 := 0xC83A91E1; K1 := 0x8648DBDB; K2 := 0x7BDEC03B; K3 := 0x2F5870A5; rmix := 33;
     ma := 0xC83A91E1; mb := 0x8648DBDB; na := 0x8648DBDB; nb := 0x7BDEC03B; r16 := 33; q16 := 35;
     r8 := 33; r4 := 15; r2 := 13; r1 := 25; f1 := 33; f2 := 33 |}.
Definition p64_2 : metro64_params :=
  {| K0 := 0xD6D018F5; K1 := 0xA2AA033B; K2 := 0x62992FC1; K3 := 0x30BC5B29; rmix := 30;
     ma := 0x62992FC1; mb := 0x62992FC1; na := 0x30BC5B29; nb := 0x30BC5B29; r16 := 29; q16 := 34;
     r8 := 36; r4 := 15; r2 := 15; r1 := 23; f1 := 28; f2 := 29 |}.

Section M64.
  Variable P : metro64_params.
  Definition m64_16 (b : list N) (h : N) : N :=
    let v0 := mul64 (rotr64 (add64 h (mul64 (word_at b 0) (ma P))) (r16 P)) (na P) in
    let v1 := mul64 (rotr64 (add64 h (mul64 (word_at b 1) (mb P))) (r16 P)) (nb P) in
    let v0 := xor v0 (add64 (rotr64 (mul64 v0 (K0 P)) (q16 P)) v1) in
    let v1 := xor v1 (add64 (rotr64 (mul64 v1 (K3 P)) (q16 P)) v0) in
    add64 h v1.
  Definition m64_small (r : N) (b : list N) (h : N) : N :=
    let h := add64 h (mul64 (le_load b) (K3 P)) in xor h (mul64 (rotr64 h r) (K1 P)).
  Definition m64_final (h : N) : N :=
    let h := mul64 (xor h (rotr64 h (f1 P))) (K0 P) in xor h (rotr64 h (f2 P)).
  (** [t4] is the least length at which the 4 byte piece is taken: 4 in the
      published algorithm. *)
  Definition m64_pieces (t4 : nat) (r : list N) (h : N) : N :=
    let '(p, r) := piece 16 16 r in let h := opt p m64_16 h in
    let '(p, r) := piece 8 8 r in let h := opt p (m64_small (r8 P)) h in
    let '(p, r) := piece t4 4 r in let h := opt p (m64_small (r4 P)) h in
    let '(p, r) := piece 2 2 r in let h := opt p (m64_small (r2 P)) h in
    let '(p, r) := piece 1 1 r in opt p (m64_small (r1 P)) h.
  Definition metro64_gen (t4 : nat) (m : list N) (seed : N) : N :=
    let '(bs, r) := blocks 32 m in
    let h := add64 (mul64 (add64 seed (K2 P)) (K0 P)) (N.of_nat (length m)) in
    let h := if (32 <=? length m)%nat then
               let '(v0, v1) := m_mix (K0 P) (K1 P) (rmix P) (rmix P) (rmix P) (rmix P)
                                  (fold_left (m_body (K0 P) (K1 P) (K2 P) (K3 P)) bs (h, h, h, h)) in
               add64 h (xor v0 v1)
             else h in
    m64_final (m64_pieces t4 r h).
  Definition metro64 := metro64_gen 4.
End M64.

(** ** 128 bits *)
Record metro128_params := {
  k0 : N; k1 : N; k2 : N; k3 : N; mr1 : N; mr2 : N; mr3 : N; mr4 : N;
  ra : N; s16 : N; s8 : N; s4 : N; s2 : N; s1 : N; g1 : N; g2 : N }.
Definition p128_1 : metro128_params :=
  {| k0 := 0xC83A91E1; k1 := 0x8648DBDB; k2 := 0x7BDEC03B; k3 := 0x2F5870A5; mr1 := 26; mr2 := 26; mr3 := 26; mr4 := 30;
     ra := 33; s16 := 17; s8 := 20; s4 := 18; s2 := 24; s1 := 24; g1 := 13; g2 := 37 |}.
Definition p128_2 : metro128_params :=
  {| k0 := 0xD6D018F5; k1 := 0xA2AA033B; k2 := 0x62992FC1; k3 := 0x30BC5B29; mr1 := 33; mr2 := 33; mr3 := 33; mr4 := 33;
     ra := 29; s16 := 29; s8 := 29; s4 := 25; s2 := 30; s1 := 18; g1 := 33; g2 := 33 |}.
Section M128.
  Variable P : metro128_params.
  Definition in128 (v w : N) : N := mul64 (rotr64 (add64 v (mul64 w (k2 P))) (ra P)) (k3 P).
  Definition x0 (s v0 v1 : N) : N := xor v0 (mul64 (rotr64 (add64 (mul64 v0 (k2 P)) v1) s) (k1 P)).
  Definition x1 (s v0 v1 : N) : N := xor v1 (mul64 (rotr64 (add64 (mul64 v1 (k3 P)) v0) s) (k0 P)).
  Definition m128_16 (b : list N) (v : N * N) : N * N :=
    let v0 := in128 (fst v) (word_at b 0) in
    let v1 := in128 (snd v) (word_at b 1) in
    let v0 := x0 (s16 P) v0 v1 in
    (v0, x1 (s16 P) v0 v1).
  Definition m128_left (s : N) (b : list N) (v : N * N) : N * N :=
    let v0 := in128 (fst v) (le_load b) in (x0 s v0 (snd v), snd v).
  Definition m128_right (s : N) (b : list N) (v : N * N) : N * N :=
    let v1 := in128 (snd v) (le_load b) in (fst v, x1 s (fst v) v1).
  Definition m128_final (v : N * N) : N * N :=
    let '(v0, v1) := v in
    let v0 := add64 v0 (rotr64 (add64 (mul64 v0 (k0 P)) v1) (g1 P)) in
    let v1 := add64 v1 (rotr64 (add64 (mul64 v1 (k1 P)) v0) (g2 P)) in
    let v0 := add64 v0 (rotr64 (add64 (mul64 v0 (k2 P)) v1) (g1 P)) in
    let v1 := add64 v1 (rotr64 (add64 (mul64 v1 (k3 P)) v0) (g2 P)) in
    (v0, v1).
  Definition metro128 (m : list N) (seed : N) : N * N :=
    let '(bs, r) := blocks 32 m in
    let len := N.of_nat (length m) in
    let v0 := add64 (mul64 (sub64 seed (k0 P)) (k3 P)) len in
    let v1 := add64 (mul64 (add64 seed (k1 P)) (k2 P)) len in
    let v := if (32 <=? length m)%nat then
               let v2 := add64 (mul64 (add64 seed (k0 P)) (k2 P)) len in
               let v3 := add64 (mul64 (sub64 seed (k1 P)) (k3 P)) len in
               m_mix (k0 P) (k1 P) (mr1 P) (mr2 P) (mr3 P) (mr4 P)
                 (fold_left (m_body (k0 P) (k1 P) (k2 P) (k3 P)) bs (v0, v1, v2, v3))
             else (v0, v1) in
    let '(p, r) := piece 16 16 r in let v := opt p m128_16 v in
    let '(p, r) := piece 8 8 r in let v := opt p (m128_left (s8 P)) v in
    let '(p, r) := piece 4 4 r in let v := opt p (m128_right (s4 P)) v in
    let '(p, r) := piece 2 2 r in let v := opt p (m128_left (s2 P)) v in
    let '(p, r) := piece 1 1 r in let v := opt p (m128_right (s1 P)) v in
    m128_final v.
End M128.

(** Parity of the number of one bits of a 64-bit word. *)
Definition odd_parity (x : N) : bool := fold_left xorb (map (fun i => N.testbit x (N.of_nat i)) (seq 0 64)) false.
