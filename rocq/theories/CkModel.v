(** Model of package keccak: keccak/keccak.go and the C files it calls through cgo,
    KeccakNISTInterface.c, KeccakSponge.c and KeccakF-1600-opt64.c with the settings of
    KeccakF-1600-opt64-settings.h (Unrolling 24, UseBebigokimisa) and
    KeccakF-1600-int-set.h, on a little-endian machine with 32-bit int.
    An access outside an array, undefined in C, is [Overread]; the loops of C have fuel,
    and a loop that does not end is one that gives [NoFuel] for every fuel. *)
From Coq Require Import NArith ZArith List Arith Bool.
From Verif Require Import Words ListLemmas Mem SLP CkProg.
Import ListNotations.
Open Scope N_scope.

(** ** KeccakF-1600-opt64.c *)
(** The state is only accessed as 25 words after KeccakInitializeState; the word i of
    other byte arrays is read little-endian (casts to UINT64 pointers, e.g.
    KeccakF-1600-opt64.c:260). *)
Definition word (data : list N) (i : nat) : N := le_load (firstn 8 (skipn (8 * i) data)).
(** rounds, KeccakF-1600-unrolling.macros.h:15-41, after copying the lanes into A, and
    copyToState; the other local variables, 60 of them, are assigned before they are
    read and are 0 here. *)
Definition run_rounds (lanes : list N) : list N :=
  firstn 25 (fold_left (fun r p => exec 64 p r) rounds24 (lanes ++ repeat 0 60)).
(** KeccakPermutationOnWords, KeccakF-1600-opt64.c:97-109; KeccakPermutation, :241-245. *)
Definition KeccakPermutation (state : list N) : list N := run_rounds state.
(** KeccakPermutationOnWordsAfterXoring576bits and the like, KeccakF-1600-opt64.c:128-222,
    called by KeccakAbsorb576bits and the like, :256-350; [pat] from CkProg. *)
Definition absorb_fast (pat : list bool) (state data : list N) : res (list N) :=
  if Nat.leb (8 * List.length (filter (fun b => b) pat)) (List.length data) then
    Ok (run_rounds (map (fun i => if nth i pat false then xor (nth i state 0) (word data i) else nth i state 0) (seq 0 25)))
  else Overread.
(** KeccakPermutationOnWordsAfterXoring, KeccakF-1600-opt64.c:111-126, called by KeccakAbsorb, :352-364. *)
Definition KeccakAbsorb (state data : list N) (laneCount : nat) : res (list N) :=
  if (Nat.leb laneCount 25 && Nat.leb (8 * laneCount) (List.length data))%bool then
    Ok (run_rounds (fold_left (fun s j => upd s j (xor (nth j s 0) (word data j))) (seq 0 laneCount) state))
  else Overread.
(** The choice by rate, KeccakSponge.c:46-77 and 96-169. *)
Definition absorb_rate (rate : N) (state data : list N) : res (list N) :=
  if rate =? 576 then absorb_fast xored576 state data
  else if rate =? 832 then absorb_fast xored832 state data
  else if rate =? 1024 then absorb_fast xored1024 state data
  else if rate =? 1088 then absorb_fast xored1088 state data
  else if rate =? 1152 then absorb_fast xored1152 state data
  else if rate =? 1344 then absorb_fast xored1344 state data
  else KeccakAbsorb state data (N.to_nat (rate / 64)).
(** KeccakInitializeState, KeccakF-1600-opt64.c:228-239. *)
Definition KeccakInitializeState : list N :=
  fold_left (fun s i => upd s i (notw 64 0)) [1; 2; 8; 12; 17; 20]%nat (repeat 0 25).
(** Storing the first lanes of the state into the byte array [data]: the word-wise complements of KeccakF-1600-opt64.c:386-389 and
    405-422 are done on the words before they become bytes. *)
Definition extract (inverted : list nat) (laneCount : nat) (state data : list N) : res (list N) :=
  if (Nat.leb laneCount 25 && Nat.leb (8 * laneCount) (List.length data))%bool then
    let ws := map (fun i => if (existsb (Nat.eqb i) inverted && Nat.ltb i laneCount)%bool then notw 64 (nth i state 0) else nth i state 0) (seq 0 laneCount) in
    Ok (concat (map (le_store 8) ws) ++ skipn (8 * laneCount) data)
  else Overread.
(** KeccakExtract1024bits, KeccakF-1600-opt64.c:375-391; KeccakExtract, :394-424. *)
Definition KeccakExtract1024bits (state data : list N) : res (list N) := extract [1; 2; 8; 12]%nat 16 state data.
Definition KeccakExtract (state data : list N) (laneCount : nat) : res (list N) :=
  extract [1; 2; 8; 12; 17; 20]%nat laneCount state data.

(** ** KeccakSponge.c *)
(** spongeState, KeccakSponge.h:30-39. *)
Record spongeState := mkSponge {
  state : list N; dataQueue : list N; rate : N; capacity : N; bitsInQueue : N;
  fixedOutputLength : N; squeezing : bool; bitsAvailableForSqueezing : N }.
(** Assignments to one field of the struct, KeccakSponge.h:30-39. *)
Definition withState s x := mkSponge x (dataQueue s) (rate s) (capacity s) (bitsInQueue s) (fixedOutputLength s) (squeezing s) (bitsAvailableForSqueezing s).
Definition withQueue s x := mkSponge (state s) x (rate s) (capacity s) (bitsInQueue s) (fixedOutputLength s) (squeezing s) (bitsAvailableForSqueezing s).
Definition withBits s x := mkSponge (state s) (dataQueue s) (rate s) (capacity s) x (fixedOutputLength s) (squeezing s) (bitsAvailableForSqueezing s).
Definition withFixed s x := mkSponge (state s) (dataQueue s) (rate s) (capacity s) (bitsInQueue s) x (squeezing s) (bitsAvailableForSqueezing s).
Definition withAvail s x := mkSponge (state s) (dataQueue s) (rate s) (capacity s) (bitsInQueue s) (fixedOutputLength s) (squeezing s) x.
Definition withSqueezing s := mkSponge (state s) (dataQueue s) (rate s) (capacity s) (bitsInQueue s) (fixedOutputLength s) true (bitsAvailableForSqueezing s).
(** KeccakMaximumRateInBytes, KeccakSponge.h:19-20. *)
Definition queue_bytes : nat := 192.

(** InitSponge, KeccakSponge.c:21-38: [None] when it returns 1 and leaves the state alone. *)
Definition InitSponge (r c : N) : option spongeState :=
  if negb (add32 r c =? 1600) then None
  else if ((r <=? 0) || (1600 <=? r) || negb (r mod 64 =? 0))%bool then None
  else Some (mkSponge KeccakInitializeState (repeat 0 queue_bytes) r c 0 0 false 0).

(** AbsorbQueue, KeccakSponge.c:40-78. *)
Definition AbsorbQueue (s : spongeState) : res spongeState :=
  st <~ absorb_rate (rate s) (state s) (dataQueue s) ;; Ok (withBits (withState s st) 0).

(** memcpy(dst + off, src + soff, n), as used at KeccakSponge.c:178 and 261. *)
Definition memcpy (dst : list N) (off : N) (src : list N) (soff n : N) : res (list N) :=
  if ((off + n <=? N.of_nat (List.length dst)) && (soff + n <=? N.of_nat (List.length src)))%bool then
    Ok (firstn (N.to_nat off) dst ++ firstn (N.to_nat n) (skipn (N.to_nat soff) src) ++ skipn (N.to_nat (off + n)) dst)
  else Overread.
(** memset(dst + off, 0, n), as used at KeccakSponge.c:200 and 203. *)
Definition memset0 (dst : list N) (off n : N) : res (list N) :=
  if off + n <=? N.of_nat (List.length dst) then
    Ok (firstn (N.to_nat off) dst ++ repeat 0 (N.to_nat n) ++ skipn (N.to_nat (off + n)) dst)
  else Overread.
(** Reading and writing one byte, KeccakSponge.c:185, 198, 204, 206; KeccakNISTInterface.c:52. *)
Definition byte_at (a : list N) (i : N) : res N :=
  if i <? N.of_nat (List.length a) then Ok (nth (N.to_nat i) a 0) else Overread.
Definition set_byte (a : list N) (i x : N) : res (list N) :=
  if i <? N.of_nat (List.length a) then Ok (upd a (N.to_nat i) x) else Overread.

(** The loop over whole blocks, KeccakSponge.c:96-169: curData advances by rate/8. *)
Fixpoint whole_blocks (n : nat) (r : N) (st curData : list N) : res (list N) :=
  match n with
  | O => Ok st
  | S n => st <~ absorb_rate r st curData ;; whole_blocks n r st (skipn (N.to_nat (r / 8)) curData)
  end.
(** The loop of Absorb, KeccakSponge.c:92-190; partialBlock and bitsInQueue are 32-bit, databitlen and i
    64-bit. *)
Fixpoint absorb_while (fuel : nat) (s : spongeState) (data : list N) (databitlen i : N) : res spongeState :=
  match fuel with
  | O => NoFuel
  | S fuel =>
      if i <? databitlen then
        if ((bitsInQueue s =? 0) && (rate s <=? databitlen) && (i <=? databitlen - rate s))%bool then
          let wholeBlocks := (databitlen - i) / rate s in
          st <~ whole_blocks (N.to_nat wholeBlocks) (rate s) (state s) (skipn (N.to_nat (i / 8)) data) ;;
          absorb_while fuel (withState s st) data databitlen (add64 i (mul64 wholeBlocks (rate s)))
        else
          let partialBlock := wrap 32 (databitlen - i) in
          let partialBlock := if rate s <? add32 partialBlock (bitsInQueue s)
                              then sub32 (rate s) (bitsInQueue s) else partialBlock in
          let partialByte := partialBlock mod 8 in
          let partialBlock := partialBlock - partialByte in
          q <~ memcpy (dataQueue s) (bitsInQueue s / 8) data (i / 8) (partialBlock / 8) ;;
          let s := withBits (withQueue s q) (add32 (bitsInQueue s) partialBlock) in
          let i := add64 i partialBlock in
          s <~ (if bitsInQueue s =? rate s then AbsorbQueue s else Ok s) ;;
          if 0 <? partialByte then
            let mask := shlw 8 1 partialByte - 1 in
            x <~ byte_at data (i / 8) ;;
            q <~ set_byte (dataQueue s) (bitsInQueue s / 8) (N.land x mask) ;;
            absorb_while fuel (withBits (withQueue s q) (add32 (bitsInQueue s) partialByte)) data databitlen (add64 i partialByte)
          else absorb_while fuel s data databitlen i
      else Ok s
  end.
(** Absorb, KeccakSponge.c:80-192; the returned int. *)
Definition Absorb (fuel : nat) (s : spongeState) (data : list N) (databitlen : N) : res (spongeState * N) :=
  if negb (bitsInQueue s mod 8 =? 0) then Ok (s, 1)
  else if squeezing s then Ok (s, 1)
  else s <~ absorb_while fuel s data databitlen 0 ;; Ok (s, 0).

(** Extraction by rate, KeccakSponge.c:212-222 and 243-253. *)
Definition extract_rate (s : spongeState) : res spongeState :=
  if rate s =? 1024 then
    q <~ KeccakExtract1024bits (state s) (dataQueue s) ;; Ok (withAvail (withQueue s q) 1024)
  else
    q <~ KeccakExtract (state s) (dataQueue s) (N.to_nat (rate s / 64)) ;; Ok (withAvail (withQueue s q) (rate s)).
(** queue[i/8] |= 1 << (i % 8), KeccakSponge.c:198, 204, 206. *)
Definition set_bit (q : list N) (i : N) : res (list N) :=
  x <~ byte_at q (i / 8) ;; set_byte q (i / 8) (N.lor x (shlw 8 1 (i mod 8))).
(** PadAndSwitchToSqueezingPhase, KeccakSponge.c:194-227. *)
Definition PadAndSwitchToSqueezingPhase (s : spongeState) : res spongeState :=
  let b := bitsInQueue s in
  s <~ (if add32 b 1 =? rate s then
          q <~ set_bit (dataQueue s) b ;;
          s <~ AbsorbQueue (withQueue s q) ;;
          q <~ memset0 (dataQueue s) 0 (rate s / 8) ;; Ok (withQueue s q)
        else
          let o := add32 b 7 / 8 in
          q <~ memset0 (dataQueue s) o (rate s / 8 - o) ;;
          q <~ set_bit q b ;; Ok (withQueue s q)) ;;
  q <~ set_bit (dataQueue s) (rate s - 1) ;;
  s <~ AbsorbQueue (withQueue s q) ;;
  s <~ extract_rate s ;;
  Ok (withSqueezing s).

(** The loop of Squeeze, KeccakSponge.c:240-264. *)
Fixpoint squeeze_while (fuel : nat) (s : spongeState) (output : list N) (outputLength i : N) : res (spongeState * list N) :=
  match fuel with
  | O => NoFuel
  | S fuel =>
      if i <? outputLength then
        s <~ (if bitsAvailableForSqueezing s =? 0
              then extract_rate (withState s (KeccakPermutation (state s))) else Ok s) ;;
        let partialBlock := bitsAvailableForSqueezing s in
        let partialBlock := if outputLength - i <? partialBlock then wrap 32 (outputLength - i) else partialBlock in
        output <~ memcpy output (i / 8) (dataQueue s) ((rate s - bitsAvailableForSqueezing s) / 8) (partialBlock / 8) ;;
        squeeze_while fuel (withAvail s (bitsAvailableForSqueezing s - partialBlock)) output outputLength (add64 i partialBlock)
      else Ok (s, output)
  end.
(** Squeeze, KeccakSponge.c:229-266: state, output array and returned int. *)
Definition Squeeze (fuel : nat) (s : spongeState) (output : list N) (outputLength : N) : res (spongeState * list N * N) :=
  s <~ (if squeezing s then Ok s else PadAndSwitchToSqueezingPhase s) ;;
  if negb (outputLength mod 8 =? 0) then Ok (s, output, 1)
  else '(s, output) <~ squeeze_while fuel s output outputLength 0 ;; Ok (s, output, 0).

(** ** KeccakNISTInterface.c *)
(** HashReturn, KeccakNISTInterface.h:21. *)
Definition SUCCESS : N := 0.
Definition BAD_HASHLEN : N := 2.
(** Init, KeccakNISTInterface.c:18-41; [s] is the contents before. *)
Definition Init (s : spongeState) (hashbitlen : N) : spongeState * N :=
  let go r c := (withFixed (match InitSponge r c with Some s => s | None => s end) hashbitlen, SUCCESS) in
  if hashbitlen =? 0 then go 1024 576
  else if hashbitlen =? 224 then go 1152 448
  else if hashbitlen =? 256 then go 1088 512
  else if hashbitlen =? 384 then go 832 768
  else if hashbitlen =? 512 then go 576 1024
  else (s, BAD_HASHLEN).
(** Update, KeccakNISTInterface.c:43-58. *)
Definition Update (fuel : nat) (s : spongeState) (data : list N) (databitlen : N) : res (spongeState * N) :=
  if databitlen mod 8 =? 0 then Absorb fuel s data databitlen
  else
    '(s, ret) <~ Absorb fuel s data (databitlen - databitlen mod 8) ;;
    if ret =? SUCCESS then
      x <~ byte_at data (databitlen / 8) ;;
      Absorb fuel s [shr x (8 - databitlen mod 8)] (databitlen mod 8)
    else Ok (s, ret).
(** Final, KeccakNISTInterface.c:60-63. *)
Definition Final (fuel : nat) (s : spongeState) (hashval : list N) : res (spongeState * list N * N) :=
  Squeeze fuel s hashval (fixedOutputLength s).

(** ** keccak.go *)
(** keccak, keccak.go:11-15; dataLength is never used.  A new one is all zero. *)
Record keccak := mkKeccak { hashState : spongeState; bitlen : Z }.
Definition zero_state : spongeState := mkSponge (repeat 0 25) (repeat 0 queue_bytes) 0 0 0 0 false 0.
(** Reset, keccak.go:68-70: the result of Init is ignored.  (C.int(bitlen) is one of four values.) *)
Definition Reset (k : keccak) : keccak := mkKeccak (fst (Init (hashState k) (Z.to_N (bitlen k)))) (bitlen k).
(** newKeccak, keccak.go:17-21; New224 .. New512, :29-43. *)
Definition newKeccak (bits : Z) : keccak := Reset (mkKeccak zero_state bits).
Definition New224 : keccak := newKeccak 224.
Definition New256 : keccak := newKeccak 256.
Definition New384 : keccak := newKeccak 384.
Definition New512 : keccak := newKeccak 512.
(** Size, keccak.go:76-78; BlockSize, :72-74. *)
Definition Size (k : keccak) : Z := Z.quot (bitlen k) 8.
Definition BlockSize (k : keccak) : Z := (200 - 2 * Size k)%Z.
(** Write, keccak.go:45-56: the count and whether there is an error. *)
Definition Write (fuel : nat) (k : keccak) (b : list N) : res (keccak * nat * bool) :=
  let n := List.length b in
  if Nat.eqb n 0 then Ok (k, 0%nat, false)
  else
    '(s, ret) <~ Update fuel (hashState k) b (mul64 (N.of_nat n) 8) ;;
    if ret =? SUCCESS then Ok (mkKeccak s (bitlen k), n, false) else Ok (mkKeccak s (bitlen k), 0%nat, true).
(** Sum, keccak.go:58-66: Final works on a copy. *)
Definition Sum (fuel : nat) (k : keccak) (b : list N) : res (list N) :=
  let buf := repeat 0 (Z.to_nat (Size k)) in
  '(s, buf, ret) <~ Final fuel (hashState k) buf ;;
  if ret =? SUCCESS then Ok (b ++ buf) else Panics.
