(** Model of package keccak under every build setting that the C files offer
    (KeccakF-1600-opt64-settings.h, KeccakF-1600-int-set.h, brg_endian.h): the
    implementation of the permutation, the unrolling, the fast functions provided, the byte
    order.  CkModel is the model for the settings of the repository. *)
From Coq Require Import NArith ZArith List Arith Bool.
From Verif Require Import Words ListLemmas Mem SLP CkProg CkModel CkVecModel CkSetProg.
Import ListNotations.
Open Scope N_scope.

(** ** The settings *)
(** Neither UseSSE nor UseMMX, with or without UseBebigokimisa; UseMMX; UseSSE with
    UseOnlySIMD64; UseSSE without: KeccakF-1600-opt64.c:22-92 (UseBebigokimisa with one of
    the others is a #error, :60-62 and 85-87). *)
Inductive simd := Scalar (bebigokimisa : bool) | MMX | SSE64 | SSE128.
(** [unrolling] is one of [unrollings] (others are a #error, KeccakF-1600-unrolling.macros.h:122-124);
    [provided] the ProvideFast macros defined, KeccakF-1600-int-set.h:1-6; [big] whether
    PLATFORM_BYTE_ORDER is IS_BIG_ENDIAN, brg_endian.h:38-40; [state16] whether the state is at
    an address divisible by 16 (the ALIGN of KeccakSponge.h:22-32 asks for 32); [junk] what the
    local variables contain before they are assigned to (the same in every call here). *)
Record settings := mkSettings {
  s_simd : simd; s_unrolling : nat * list call; s_provided : list N; s_big : bool; s_state16 : bool; s_junk : nat -> N * N }.
(** UseBebigokimisa, KeccakF-1600-opt64-settings.h:2. *)
Definition complementing (S : settings) : bool := match s_simd S with Scalar b => b | _ => false end.

(** ** The rounds, KeccakF-1600-unrolling.macros.h *)
(** The macros that a definition of rounds calls, in one of the three files of macros:
    KeccakF-1600-unrolling.macros.h:15-121. *)
Record macros := mkMacros {
  m_mem : Type; m_prepare : m_mem -> m_mem; m_round : N -> bool -> bool -> m_mem -> m_mem;
  m_last : N -> bool -> bool -> m_mem -> m_mem; m_copy : bool -> bool -> m_mem -> m_mem }.
(** The number of the first lane variable of A (false) or E (true), see CkSetProg; KeccakF-1600-64.macros.h:16-33 and
    KeccakF-1600-simd64.macros.h:16-33; KeccakF-1600-simd128.macros.h:14-40. *)
Definition at64 (x : bool) : nat := if x then 25%nat else 0%nat.
Definition at128 (x : bool) : nat := if x then 35%nat else 0%nat.
(** KeccakF-1600-64.macros.h:35-455 and 702-727. *)
Definition scalar_macros (bebi : bool) : macros := mkMacros (list N) (exec 64 prepareTheta)
  (fun c x y => exec 64 (if bebi then thetaRhoPiChiIotaPrepareTheta c (at64 x) (at64 y) else plain_round c (at64 x) (at64 y)))
  (fun c x y => exec 64 (if bebi then thetaRhoPiChiIota c (at64 x) (at64 y) else plain_last c (at64 x) (at64 y)))
  (fun x y => exec 64 (copyStateVariables (at64 x) (at64 y))).
(** KeccakF-1600-simd64.macros.h:35-246 and 491-516, with __m64 and with __m128i. *)
Definition mmx_macros : macros := mkMacros (vmem N) (run64 v64_prepare)
  (fun c x y => run64 (v64_round c (at64 x) (at64 y))) (fun c x y => run64 (v64_last c (at64 x) (at64 y)))
  (fun x y => run64 (v64_copy (at64 x) (at64 y))).
Definition sse64_macros : macros := mkMacros (vmem (N * N)) (run128 v64_prepare)
  (fun c x y => run128 (v64_round c (at64 x) (at64 y))) (fun c x y => run128 (v64_last c (at64 x) (at64 y)))
  (fun x y => run128 (v64_copy (at64 x) (at64 y))).
(** KeccakF-1600-simd128.macros.h:42-185 and 632-653; thetaRhoPiChiIota is thetaRhoPiChiIotaPrepareTheta, :185. *)
Definition sse128_macros : macros := mkMacros (vmem (N * N)) (fun m => m)
  (fun c x y => run128 (v128_round c (at128 x) (at128 y))) (fun c x y => run128 (v128_round c (at128 x) (at128 y)))
  (fun x y => run128 (v128_copy (at128 x) (at128 y))).
(** One macro call in the body of the loop, KeccakF-1600-unrolling.macros.h:46. *)
Definition call_ (M : macros) (i : nat) (m : m_mem M) (c : call) : m_mem M :=
  match c with
  | Rd off x y => m_round M (nth (i + off) KeccakF1600RoundConstants 0) x y m
  | Last off x y => m_last M (nth (i + off) KeccakF1600RoundConstants 0) x y m
  | Copy x y => m_copy M x y m
  end.
(** for(i=0; i<24; i+=step), KeccakF-1600-unrolling.macros.h:45; after 24 turns it has ended if it ends. *)
Fixpoint for24 (fuel : nat) (M : macros) (step : nat) (body : list call) (i : nat) (m : m_mem M) : res (m_mem M) :=
  if Nat.ltb i 24 then
    match fuel with
    | O => NoFuel
    | S fuel => for24 fuel M step body (i + step) (fold_left (call_ M i) body m)
    end
  else Ok m.
(** rounds, KeccakF-1600-unrolling.macros.h:15-121, without copyToState(state, A). *)
Definition rounds (M : macros) (u : nat * list call) (m : m_mem M) : res (m_mem M) :=
  for24 24 M (fst u) (snd u) 0 (m_prepare M m).

(** ** The permutation on words *)
(** copyFromState or copyFromStateAndXor..bits, KeccakF-1600-64.macros.h:486-672,
    KeccakF-1600-simd64.macros.h:275-462, KeccakF-1600-simd128.macros.h:213-603; by the number of bits. *)
Definition pattern (bits : N) : list bool :=
  if bits =? 576 then xored576 else if bits =? 832 then xored832 else if bits =? 1024 then xored1024
  else if bits =? 1088 then xored1088 else if bits =? 1152 then xored1152 else if bits =? 1344 then xored1344 else repeat false 25.
Definition load64 (bits : N) : vprog :=
  if bits =? 576 then v64_load576 0 else if bits =? 832 then v64_load832 0 else if bits =? 1024 then v64_load1024 0
  else if bits =? 1088 then v64_load1088 0 else if bits =? 1152 then v64_load1152 0 else if bits =? 1344 then v64_load1344 0 else v64_load 0.
Definition load128 (bits : N) : vprog :=
  if bits =? 576 then v128_load576 0 else if bits =? 832 then v128_load832 0 else if bits =? 1024 then v128_load1024 0
  else if bits =? 1088 then v128_load1088 0 else if bits =? 1152 then v128_load1152 0 else if bits =? 1344 then v128_load1344 0 else v128_load 0.
(** How many words of input are read: KeccakF-1600-64.macros.h:486-646 and so on. *)
Definition words_read (S : settings) (bits : N) : nat :=
  match s_simd S with
  | Scalar _ => List.length (filter (fun b => b) (pattern bits))
  | MMX | SSE64 => preads MInput (load64 bits)
  | SSE128 => preads MInput (load128 bits)
  end.
(** KeccakPermutationOnWords (bits = 0) and KeccakPermutationOnWordsAfterXoring576bits and the like, KeccakF-1600-opt64.c:97-109
    and 128-222, on an input that is long enough.  A misaligned _mm_load_si128 faults ([Panics]);
    the stores are of 64 bits and need no alignment; the arrays are not assumed to be aligned. *)
Definition permute (S : settings) (bits : N) (state input : list N) : res (list N) :=
  match s_simd S with
  | Scalar b =>
      let lanes := map (fun i => if nth i (pattern bits) false then xor (nth i state 0) (nth i input 0) else nth i state 0) (seq 0 25) in
      m <~ rounds (scalar_macros b) (s_unrolling S) (lanes ++ map (fun i => fst (s_junk S i)) (seq 0 60)) ;;
      Ok (firstn 25 m)
  | MMX =>
      m <~ rounds mmx_macros (s_unrolling S) (run64 (load64 bits) (mkV (fun i => fst (s_junk S i)) state input)) ;;
      Ok (vstate (run64 (v64_store 0) m))
  | SSE64 =>
      m <~ rounds sse64_macros (s_unrolling S) (run128 (load64 bits) (mkV (s_junk S) state input)) ;;
      Ok (vstate (run128 (v64_store 0) m))
  | SSE128 =>
      if paligned (s_state16 S) false (load128 bits ++ v128_store 0) then
        m <~ rounds sse128_macros (s_unrolling S) (run128 (load128 bits) (mkV (s_junk S) state input)) ;;
        Ok (vstate (run128 (v128_store 0) m))
      else Panics
  end.

(** ** The functions on byte strings, KeccakF-1600-opt64.c:228-424 *)
(** fromBytesToWord, KeccakF-1600-opt64.c:247-254, on the 8 bytes at i*8. *)
Definition fromBytesToWord (data : list N) (i : nat) : N :=
  fold_left (fun w j => N.lor w (shl64 (nth (8 * i + j) data 0) (8 * N.of_nat j))) (seq 0 8) 0.
(** fromWordToBytes, KeccakF-1600-opt64.c:366-372. *)
Definition fromWordToBytes (w : N) : list N := map (fun i => N.land (shr w (8 * N.of_nat i)) 0xff) (seq 0 8).
(** The first n words of a byte array: read through a cast on a little-endian machine, put together by fromBytesToWord on a
    big-endian one; e.g. KeccakF-1600-opt64.c:259-267. *)
Definition data_words (S : settings) (data : list N) (n : nat) : list N :=
  map (if s_big S then fromBytesToWord data else word data) (seq 0 n).
(** dataAsWords of KeccakAbsorb576bits and the like, KeccakF-1600-opt64.c:262, 277, 292, 307, 322, 337: the numbers of words. *)
Definition as_words (bits : N) : nat :=
  if bits =? 576 then 9 else if bits =? 832 then 13 else if bits =? 1024 then 16
  else if bits =? 1088 then 17 else if bits =? 1152 then 18 else if bits =? 1344 then 21 else 0.
(** KeccakAbsorb576bits and the like, KeccakF-1600-opt64.c:256-350. *)
Definition set_absorb_fast (S : settings) (bits : N) (state data : list N) : res (list N) :=
  let n := if s_big S then as_words bits else words_read S bits in
  if (Nat.leb (8 * n) (List.length data) && Nat.leb (words_read S bits) n)%bool
  then permute S bits state (data_words S data n) else Overread.
(** KeccakPermutationOnWordsAfterXoring, KeccakF-1600-opt64.c:111-126; KeccakAbsorb, :352-364. *)
Definition set_KeccakAbsorb (S : settings) (state data : list N) (laneCount : nat) : res (list N) :=
  if (Nat.leb laneCount 25 && Nat.leb (8 * laneCount) (List.length data))%bool then
    let input := data_words S data laneCount in
    permute S 0 (fold_left (fun s j => upd s j (xor (nth j s 0) (nth j input 0))) (seq 0 laneCount) state) []
  else Overread.
(** The choice by rate, KeccakSponge.c:46-77 and 96-169, with the #ifdefs. *)
Definition set_absorb (S : settings) (rate : N) (state data : list N) : res (list N) :=
  let fast b := ((rate =? b) && existsb (N.eqb b) (s_provided S))%bool in
  if fast 576 then set_absorb_fast S 576 state data
  else if fast 832 then set_absorb_fast S 832 state data
  else if fast 1024 then set_absorb_fast S 1024 state data
  else if fast 1088 then set_absorb_fast S 1088 state data
  else if fast 1152 then set_absorb_fast S 1152 state data
  else if fast 1344 then set_absorb_fast S 1344 state data
  else set_KeccakAbsorb S state data (N.to_nat (rate / 64)).
(** KeccakInitializeState, KeccakF-1600-opt64.c:228-239. *)
Definition set_init (S : settings) : list N :=
  fold_left (fun s i => upd s i (notw 64 0)) (if complementing S then [1; 2; 8; 12; 17; 20]%nat else []) (repeat 0 25).
(** ((UINT64* )data)[i] = ~((UINT64* )data)[i] on a big-endian machine, KeccakF-1600-opt64.c:386. *)
Definition not_word_big (data : list N) (i : nat) : list N :=
  firstn (8 * i) data ++ be_store 8 (notw 64 (be_load (firstn 8 (skipn (8 * i) data)))) ++ skipn (8 * i + 8) data.
(** KeccakExtract1024bits, KeccakF-1600-opt64.c:374-392; KeccakExtract, :394-424: [lanes] are the lanes that are complemented
    if there are that many. *)
Definition set_extract_lanes (S : settings) (lanes : list nat) (laneCount : nat) (state data : list N) : res (list N) :=
  let lanes := if complementing S then lanes else [] in
  if s_big S then
    if (Nat.leb laneCount 25 && Nat.leb (8 * laneCount) (List.length data))%bool then
      Ok (fold_left (fun d i => if Nat.ltb i laneCount then not_word_big d i else d) lanes
            (concat (map (fun i => fromWordToBytes (nth i state 0)) (seq 0 laneCount)) ++ skipn (8 * laneCount) data))
    else Overread
  else CkModel.extract lanes laneCount state data.
Definition set_extract1024 (S : settings) (state data : list N) : res (list N) := set_extract_lanes S [1; 2; 8; 12]%nat 16 state data.
Definition set_extract (S : settings) (state data : list N) (laneCount : nat) : res (list N) :=
  set_extract_lanes S [1; 2; 8; 12; 17; 20]%nat laneCount state data.

(** ** KeccakSponge.c, KeccakNISTInterface.c, keccak.go *)
(** As in CkModel, where the lines are cited again, with the functions above (interface of
    KeccakF-1600-interface.h:16-46) as parameters. *)
Record core := mkCore {
  k_init : list N; k_permutation : list N -> res (list N); k_absorb : N -> list N -> list N -> res (list N);
  k_extract : N -> list N -> list N -> res (list N) }.
(** The core for some settings; extraction by rate, KeccakSponge.c:212-222 and 243-253, with the #ifdef. *)
Definition core_of (S : settings) : core := mkCore (set_init S) (fun s => permute S 0 s []) (set_absorb S)
  (fun rate s d => if ((rate =? 1024) && existsb (N.eqb 1024) (s_provided S))%bool then set_extract1024 S s d
                   else set_extract S s d (N.to_nat (rate / 64))).
Section Sponge.
  Variable K : core.
  (** InitSponge, KeccakSponge.c:21-38. *)
  Definition set_InitSponge (r c : N) : option spongeState :=
    if negb (add32 r c =? 1600) then None
    else if ((r <=? 0) || (1600 <=? r) || negb (r mod 64 =? 0))%bool then None
    else Some (mkSponge (k_init K) (repeat 0 queue_bytes) r c 0 0 false 0).
  (** AbsorbQueue, KeccakSponge.c:40-78. *)
  Definition set_AbsorbQueue (s : spongeState) : res spongeState :=
    st <~ k_absorb K (rate s) (state s) (dataQueue s) ;; Ok (withBits (withState s st) 0).
  (** The loop over whole blocks, KeccakSponge.c:96-169. *)
  Fixpoint set_whole_blocks (n : nat) (r : N) (st curData : list N) : res (list N) :=
    match n with
    | O => Ok st
    | S n => st <~ k_absorb K r st curData ;; set_whole_blocks n r st (skipn (N.to_nat (r / 8)) curData)
    end.
  (** The loop of Absorb, KeccakSponge.c:92-190. *)
  Fixpoint set_absorb_while (fuel : nat) (s : spongeState) (data : list N) (databitlen i : N) : res spongeState :=
    match fuel with
    | O => NoFuel
    | S fuel =>
        if i <? databitlen then
          if ((bitsInQueue s =? 0) && (rate s <=? databitlen) && (i <=? databitlen - rate s))%bool then
            let wholeBlocks := (databitlen - i) / rate s in
            st <~ set_whole_blocks (N.to_nat wholeBlocks) (rate s) (state s) (skipn (N.to_nat (i / 8)) data) ;;
            set_absorb_while fuel (withState s st) data databitlen (add64 i (mul64 wholeBlocks (rate s)))
          else
            let partialBlock := wrap 32 (databitlen - i) in
            let partialBlock := if rate s <? add32 partialBlock (bitsInQueue s)
                                then sub32 (rate s) (bitsInQueue s) else partialBlock in
            let partialByte := partialBlock mod 8 in
            let partialBlock := partialBlock - partialByte in
            q <~ memcpy (dataQueue s) (bitsInQueue s / 8) data (i / 8) (partialBlock / 8) ;;
            let s := withBits (withQueue s q) (add32 (bitsInQueue s) partialBlock) in
            let i := add64 i partialBlock in
            s <~ (if bitsInQueue s =? rate s then set_AbsorbQueue s else Ok s) ;;
            if 0 <? partialByte then
              let mask := shlw 8 1 partialByte - 1 in
              x <~ byte_at data (i / 8) ;;
              q <~ set_byte (dataQueue s) (bitsInQueue s / 8) (N.land x mask) ;;
              set_absorb_while fuel (withBits (withQueue s q) (add32 (bitsInQueue s) partialByte)) data databitlen (add64 i partialByte)
            else set_absorb_while fuel s data databitlen i
        else Ok s
    end.
  (** Absorb, KeccakSponge.c:80-192. *)
  Definition set_Absorb (fuel : nat) (s : spongeState) (data : list N) (databitlen : N) : res (spongeState * N) :=
    if negb (bitsInQueue s mod 8 =? 0) then Ok (s, 1)
    else if squeezing s then Ok (s, 1)
    else s <~ set_absorb_while fuel s data databitlen 0 ;; Ok (s, 0).
  (** Extraction by rate, KeccakSponge.c:212-222 and 243-253. *)
  Definition set_extract_rate (s : spongeState) : res spongeState :=
    q <~ k_extract K (rate s) (state s) (dataQueue s) ;; Ok (withAvail (withQueue s q) (rate s)).
  (** PadAndSwitchToSqueezingPhase, KeccakSponge.c:194-227. *)
  Definition set_Pad (s : spongeState) : res spongeState :=
    let b := bitsInQueue s in
    s <~ (if add32 b 1 =? rate s then
            q <~ set_bit (dataQueue s) b ;;
            s <~ set_AbsorbQueue (withQueue s q) ;;
            q <~ memset0 (dataQueue s) 0 (rate s / 8) ;; Ok (withQueue s q)
          else
            let o := add32 b 7 / 8 in
            q <~ memset0 (dataQueue s) o (rate s / 8 - o) ;;
            q <~ set_bit q b ;; Ok (withQueue s q)) ;;
    q <~ set_bit (dataQueue s) (rate s - 1) ;;
    s <~ set_AbsorbQueue (withQueue s q) ;;
    s <~ set_extract_rate s ;;
    Ok (withSqueezing s).
  (** The loop of Squeeze, KeccakSponge.c:240-264. *)
  Fixpoint set_squeeze_while (fuel : nat) (s : spongeState) (output : list N) (outputLength i : N) : res (spongeState * list N) :=
    match fuel with
    | O => NoFuel
    | S fuel =>
        if i <? outputLength then
          s <~ (if bitsAvailableForSqueezing s =? 0
                then st <~ k_permutation K (state s) ;; set_extract_rate (withState s st) else Ok s) ;;
          let partialBlock := bitsAvailableForSqueezing s in
          let partialBlock := if outputLength - i <? partialBlock then wrap 32 (outputLength - i) else partialBlock in
          output <~ memcpy output (i / 8) (dataQueue s) ((rate s - bitsAvailableForSqueezing s) / 8) (partialBlock / 8) ;;
          set_squeeze_while fuel (withAvail s (bitsAvailableForSqueezing s - partialBlock)) output outputLength (add64 i partialBlock)
        else Ok (s, output)
    end.
  (** Squeeze, KeccakSponge.c:229-266. *)
  Definition set_Squeeze (fuel : nat) (s : spongeState) (output : list N) (outputLength : N) : res (spongeState * list N * N) :=
    s <~ (if squeezing s then Ok s else set_Pad s) ;;
    if negb (outputLength mod 8 =? 0) then Ok (s, output, 1)
    else '(s, output) <~ set_squeeze_while fuel s output outputLength 0 ;; Ok (s, output, 0).
  (** Init, KeccakNISTInterface.c:18-41. *)
  Definition set_Init (s : spongeState) (hashbitlen : N) : spongeState * N :=
    let go r c := (withFixed (match set_InitSponge r c with Some s => s | None => s end) hashbitlen, SUCCESS) in
    if hashbitlen =? 0 then go 1024 576
    else if hashbitlen =? 224 then go 1152 448
    else if hashbitlen =? 256 then go 1088 512
    else if hashbitlen =? 384 then go 832 768
    else if hashbitlen =? 512 then go 576 1024
    else (s, BAD_HASHLEN).
  (** Update, KeccakNISTInterface.c:43-58. *)
  Definition set_Update (fuel : nat) (s : spongeState) (data : list N) (databitlen : N) : res (spongeState * N) :=
    if databitlen mod 8 =? 0 then set_Absorb fuel s data databitlen
    else
      '(s, ret) <~ set_Absorb fuel s data (databitlen - databitlen mod 8) ;;
      if ret =? SUCCESS then
        x <~ byte_at data (databitlen / 8) ;;
        set_Absorb fuel s [shr x (8 - databitlen mod 8)] (databitlen mod 8)
      else Ok (s, ret).
  (** Final, KeccakNISTInterface.c:60-63. *)
  Definition set_Final (fuel : nat) (s : spongeState) (hashval : list N) : res (spongeState * list N * N) :=
    set_Squeeze fuel s hashval (fixedOutputLength s).
  (** Reset, keccak.go:68-70; newKeccak, :17-21. *)
  Definition set_Reset (k : keccak) : keccak := mkKeccak (fst (set_Init (hashState k) (Z.to_N (bitlen k)))) (bitlen k).
  Definition set_newKeccak (bits : Z) : keccak := set_Reset (mkKeccak zero_state bits).
  (** Write, keccak.go:45-56; Sum, :58-66. *)
  Definition set_Write (fuel : nat) (k : keccak) (b : list N) : res (keccak * nat * bool) :=
    let n := List.length b in
    if Nat.eqb n 0 then Ok (k, 0%nat, false)
    else
      '(s, ret) <~ set_Update fuel (hashState k) b (mul64 (N.of_nat n) 8) ;;
      if ret =? SUCCESS then Ok (mkKeccak s (bitlen k), n, false) else Ok (mkKeccak s (bitlen k), 0%nat, true).
  Definition set_Sum (fuel : nat) (k : keccak) (b : list N) : res (list N) :=
    let buf := repeat 0 (Z.to_nat (Size k)) in
    '(s, buf, ret) <~ set_Final fuel (hashState k) buf ;;
    if ret =? SUCCESS then Ok (b ++ buf) else Panics.
End Sponge.
(** KeccakF-1600-opt64-settings.h and KeccakF-1600-int-set.h as they are in the repository, on a
    little-endian machine. *)
Definition repo_settings : settings :=
  mkSettings (Scalar true) (24%nat, body24) [576; 832; 1024; 1088; 1152; 1344] false false (fun _ => (0, 0)).
