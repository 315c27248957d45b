(** Model of the packages sbox, crapwow, mahash and nullhash.  The two tables are copied
    by a script from the Go text. *)
From Coq Require Import NArith List Arith Lia.
From Verif Require Import Words Mem.
Import ListNotations.
Open Scope N_scope.

(** ** sbox *)
(** SBoxTable, sbox/sbox.go:7-40. *)
Definition SBoxTable : list N := [
  0x4660c395; 0x3baba6c5; 0x27ec605b; 0xdfc1d81a; 0xaaac4406; 0x3783e9b8; 0xa4e87c68; 0x62dc1b2a;
  0xa8830d34; 0x10a56307; 0x4ba469e3; 0x54836450; 0x1b0223d4; 0x23312e32; 0xc04e13fe; 0x3b3d61fa;
  0xdab2d0ea; 0x297286b1; 0x73dbf93f; 0x6bb1158b; 0x46867fe2; 0xb7fb5313; 0x3146f063; 0x4fd4c7cb;
  0xa59780fa; 0x9fa38c24; 0x38c63986; 0xa0bac49f; 0xd47d3386; 0x49f44707; 0xa28dea30; 0xd0f30e6d;
  0xd5ca7704; 0x934698e3; 0x1a1ddd6d; 0xfa026c39; 0xd72f0fe6; 0x4d52eb70; 0xe99126df; 0xdfdaed86;
  0x4f649da8; 0x427212bb; 0xc728b983; 0x7ca5d563; 0x5e6164e5; 0xe41d3a24; 0x10018a23; 0x5a12e111;
  0x999ebc05; 0xf1383400; 0x50b92a7c; 0xa37f7577; 0x2c126291; 0x9daf79b2; 0xdea086b1; 0x85b1f03d;
  0x598ce687; 0xf3f5f6b9; 0xe55c5c74; 0x791733af; 0x39954ea8; 0xafcff761; 0x5fea64f1; 0x216d43b4;
  0xd039f8c1; 0xa6cf1125; 0xc14b7939; 0xb6ac7001; 0x138a2eff; 0x2f7875d6; 0xfe298e40; 0x4a3fad3b;
  0x066207fd; 0x8d4dd630; 0x96998973; 0xe656ac56; 0xbb2df109; 0x0ee1ec32; 0x03673d6c; 0xd20fb97d;
  0x2c09423c; 0x093eb555; 0xab77c1e2; 0x64607bf2; 0x945204bd; 0xe8819613; 0xb59de0e3; 0x5df7fc9a;
  0x82542258; 0xfb0ee357; 0xda2a4356; 0x5c97ab61; 0x8076e10d; 0x48e4b3cc; 0x7c28ec12; 0xb17986e1;
  0x01735836; 0x1b826322; 0x6602a990; 0x7c1cef68; 0xe102458e; 0xa5564a67; 0x1136b393; 0x98dc0ea1;
  0x3b6f59e5; 0x9efe981d; 0x35fafbe0; 0xc9949ec2; 0x62c765f9; 0x510cab26; 0xbe071300; 0x7ee1d449;
  0xcc71beef; 0xfbb4284e; 0xbfc02ce7; 0xdf734c93; 0x2f8cebcd; 0xfeedc6ab; 0x5476ee54; 0xbd2b5ff9;
  0xf4fd0352; 0x67f9d6ea; 0x7b70db05; 0x5a5f5310; 0x482dd7aa; 0xa0a66735; 0x321ae71f; 0x8e8ad56c;
  0x27a509c3; 0x1690b261; 0x4494b132; 0xc43a42a7; 0x3f60a7a6; 0xd63779ff; 0xe69c1659; 0xd15972c8;
  0x5f6cdb0c; 0xb9415af2; 0x1261ad8d; 0xb70a6135; 0x52ceda5e; 0xd4591dc3; 0x442b793c; 0xe50e2dee;
  0x6f90fc79; 0xd9ecc8f9; 0x063dd233; 0x6cf2e985; 0xe62cfbe9; 0x3466e821; 0x2c8377a2; 0x00b9f14e;
  0x237c4751; 0x40d4a33b; 0x919df7e8; 0xa16991a4; 0xc5295033; 0x5c507944; 0x89510e2b; 0xb5f7d902;
  0xd2d439a6; 0xc23e5216; 0xd52d9de3; 0x534a5e05; 0x762e73d4; 0x3c147760; 0x2d189706; 0x20aa0564;
  0xb07bbc3b; 0x8183e2de; 0xebc28889; 0xf839ed29; 0x532278f7; 0x41f8b31b; 0x762e89c1; 0xa1e71830;
  0xac049bfc; 0x9b7f839c; 0x8fd9208d; 0x2d2402ed; 0xf1f06670; 0x2711d695; 0x5b9e8fe4; 0xdc935762;
  0xa56b794f; 0xd8666b88; 0x6872c274; 0xbc603be2; 0x2196689b; 0x5b2b5f7a; 0x00c77076; 0x16bfa292;
  0xc2f86524; 0xdd92e83e; 0xab60a3d4; 0x92daf8bd; 0x1fe14c62; 0xf0ff82cc; 0xc0ed8d0a; 0x64356e4d;
  0x7e996b28; 0x81aad3e8; 0x05a22d56; 0xc4b25d4f; 0x5e3683e5; 0x811c2881; 0x124b1041; 0xdb1b4f02;
  0x5a72b5cc; 0x07f8d94e; 0xe5740463; 0x498632ad; 0x7357ffb1; 0x0dddd380; 0x3d095486; 0x2569b0a9;
  0xd6e054ae; 0x14a47e22; 0x73ec8dcc; 0x004968cf; 0xe0c3a853; 0xc9b50a03; 0xe1b0eb17; 0x57c6f281;
  0xc9f9377d; 0x43e03612; 0x9a0c4554; 0xbb2d83ff; 0xa818ffee; 0xf407db87; 0x175e3847; 0x5597168f;
  0xd3d547a7; 0x78f3157c; 0xfc750f20; 0x9880a1c6; 0x1af41571; 0x95d01dfc; 0xa3968d62; 0xeae03cf8;
  0x02ee4662; 0x5f1943ff; 0x252d9d1c; 0x6b718887; 0xe052f724; 0x4cefa30b; 0xdcc31a00; 0xe4d0024d;
  0xdbb4534a; 0xce01f5c8; 0x0c072b61; 0x5d59736a; 0x60291da4; 0x1fbe2c71; 0x2f11d09c; 0x9dce266a].
(** Sbox, sbox.go:42-54: the loop, then the odd byte.  The loop runs while l has a bit
    other than bit 0; l is the length of what is left of key. *)
Fixpoint sbox_loop (fuel : nat) (l : nat) (key : list N) (h : N) : res (nat * list N * N) :=
  match fuel with
  | O => NoFuel
  | S fuel =>
      if Nat.eqb (Nat.div2 l) 0 then Ok (l, key, h)
      else
        k0 <~ idx key 0 ;; t0 <~ idx SBoxTable (N.to_nat k0) ;; k1 <~ idx key 1 ;; t1 <~ idx SBoxTable (N.to_nat k1) ;;
        let h := mul32 (xor (mul32 (xor h t0) 3) t1) 3 in
        key <~ tail_from key 2 ;;
        sbox_loop fuel (l - 2) key h
  end.
Definition Sbox (key : list N) (seed : N) : res N :=
  let l := length key in
  let h := add32 (wrap 32 (N.of_nat l)) seed in
  '(l, key, h) <~ sbox_loop (S l) l key h ;;
  h <~ (if Nat.odd l then k0 <~ idx key 0 ;; t0 <~ idx SBoxTable (N.to_nat k0) ;; Ok (mul32 (xor h t0) 3) else Ok h) ;;
  Ok (add32 h (xor (shr h 22) (shl32 h 4))).
(** State, sbox.go:56-59 (the same in crapwow.go:73-76). *)
Record State := mkState { st_hash : N; st_seed : N }.
(** New, sbox.go:62-66 and crapwow.go:79-83. *)
Definition New (s : N) : State := mkState 0 s.
(** Hash32, sbox.go:87-93: [seeds] is the variadic argument. *)
Definition sbox_Hash32 (s : State) (b : list N) (seeds : list N) : res (State * N) :=
  let s := match seeds with x :: _ => mkState (st_hash s) x | [] => s end in
  h <~ Sbox b (st_seed s) ;; Ok (mkState h (st_seed s), h).

(** A client's calls on an sbox or crapwow object, one after the other: keys and seeds;
    [H] is its Hash32 method (sbox.go:87-93, crapwow.go:104). *)
Fixpoint run (H : State -> list N -> list N -> res (State * N)) (s : State) (calls : list (list N * list N)) : res (list N) :=
  match calls with
  | [] => Ok []
  | (b, seeds) :: calls => '(s, h) <~ H s b seeds ;; hs <~ run H s calls ;; Ok (h :: hs)
  end.

(** ** crapwow *)
(** m, crapwow.go:19. *)
Definition cw_m : N := 0x57559429.
(** n, crapwow.go:20. *)
Definition cw_n : N := 0x5052acdb.
(** cwmixa, crapwow.go:32-36, on (h, k). *)
Definition cwmixa (i : N) (hk : N * N) : N * N :=
  let '(h, k) := hk in let p := mul64 i cw_m in (xor h (wrap 32 (shr p 32)), xor k (wrap 32 p)).
(** cwmixb, crapwow.go:38-42. *)
Definition cwmixb (i : N) (hk : N * N) : N * N :=
  let '(h, k) := hk in let p := mul64 i cw_n in (xor h (wrap 32 p), xor k (wrap 32 (shr p 32))).
(** sliceUI32, crapwow.go:14-16: the bytes seen as len/4 little-endian words (little-endian
    machine; the model reads the words at once, the key does not change meanwhile). *)
Definition sliceUI32 (b : list N) : list N := map (fun i => le_load (firstn 4 (skipn (4 * i) b))) (seq 0 (length b / 4)).
(** The loop, crapwow.go:45-51. *)
Fixpoint cw_loop (fuel : nat) (l : nat) (key4 key : list N) (hk : N * N) : res (nat * list N * list N * (N * N)) :=
  match fuel with
  | O => NoFuel
  | S fuel =>
      if Nat.leb 8 l then
        x <~ idx key4 0 ;; let hk := cwmixb x hk in
        y <~ idx key4 1 ;; let hk := cwmixa y hk in
        key4 <~ tail_from key4 2 ;; key <~ tail_from key 8 ;;
        cw_loop fuel (l - 8) key4 key hk
      else Ok (l, key4, key, hk)
  end.
(** CrapWow, crapwow.go:18-71. *)
Definition CrapWow (key : list N) (seed : N) : res N :=
  let l := length key in
  let h := wrap 32 (N.of_nat l) in
  let k := add32 (add32 h seed) cw_n in
  '(l, key4, key, hk) <~ cw_loop (S l) l (sliceUI32 key) key (h, k) ;;
  '(l, key, hk) <~
    (if Nat.leb 4 l then
       x <~ idx key4 0 ;; let hk := cwmixb x hk in
       key4 <~ tail_from key4 1 ;; key <~ tail_from key 4 ;; Ok ((l - 4)%nat, key, hk)
     else Ok (l, key, hk)) ;;
  hk <~
    (if Nat.eqb l 3 then
       c <~ idx key 2 ;; b <~ idx key 1 ;; a <~ idx key 0 ;;
       Ok (cwmixa (N.land (N.lor (N.lor (shl32 c 16) (shl32 b 8)) a) (2 ^ 24 - 1)) hk)
     else if Nat.eqb l 2 then
       b <~ idx key 1 ;; a <~ idx key 0 ;; Ok (cwmixa (N.land (N.lor (shl32 b 8) a) (2 ^ 16 - 1)) hk)
     else if Nat.eqb l 1 then
       a <~ idx key 0 ;; Ok (cwmixa (N.land a (2 ^ 8 - 1)) hk)
     else Ok hk) ;;
  let '(h, k) := hk in
  let '(h, k) := cwmixb (xor h (add32 k cw_n)) (h, k) in
  Ok (xor k h).
(** Hash32, crapwow.go:104-110. *)
Definition crapwow_Hash32 (s : State) (b : list N) (seeds : list N) : res (State * N) :=
  let s := match seeds with x :: _ => mkState (st_hash s) x | [] => s end in
  h <~ CrapWow b (st_seed s) ;; Ok (mkState h (st_seed s), h).

(** ** mahash *)
(** sTable, mahash/mahash8v64.go:8-25. *)
Definition sTable : list N := [
  0xa3; 0xd7; 0x09; 0x83; 0xf8; 0x48; 0xf6; 0xf4; 0xb3; 0x21; 0x15; 0x78; 0x99; 0xb1; 0xaf; 0xf9;
  0xe7; 0x2d; 0x4d; 0x8a; 0xce; 0x4c; 0xca; 0x2e; 0x52; 0x95; 0xd9; 0x1e; 0x4e; 0x38; 0x44; 0x28;
  0x0a; 0xdf; 0x02; 0xa0; 0x17; 0xf1; 0x60; 0x68; 0x12; 0xb7; 0x7a; 0xc3; 0xe9; 0xfa; 0x3d; 0x53;
  0x96; 0x84; 0x6b; 0xba; 0xf2; 0x63; 0x9a; 0x19; 0x7c; 0xae; 0xe5; 0xf5; 0xf7; 0x16; 0x6a; 0xa2;
  0x39; 0xb6; 0x7b; 0x0f; 0xc1; 0x93; 0x81; 0x1b; 0xee; 0xb4; 0x1a; 0xea; 0xd0; 0x91; 0x2f; 0xb8;
  0x55; 0xb9; 0xda; 0x85; 0x3f; 0x41; 0xbf; 0xe0; 0x5a; 0x58; 0x80; 0x5f; 0x66; 0x0b; 0xd8; 0x90;
  0x35; 0xd5; 0xc0; 0xa7; 0x33; 0x06; 0x65; 0x69; 0x45; 0x00; 0x94; 0x56; 0x6d; 0x98; 0x9b; 0x76;
  0x97; 0xfc; 0xb2; 0xc2; 0xb0; 0xfe; 0xdb; 0x20; 0xe1; 0xeb; 0xd6; 0xe4; 0xdd; 0x47; 0x4a; 0x1d;
  0x42; 0xed; 0x9e; 0x6e; 0x49; 0x3c; 0xcd; 0x43; 0x27; 0xd2; 0x07; 0xd4; 0xde; 0xc7; 0x67; 0x18;
  0x89; 0xcb; 0x30; 0x1f; 0x8d; 0xc6; 0x8f; 0xaa; 0xc8; 0x74; 0xdc; 0xc9; 0x5d; 0x5c; 0x31; 0xa4;
  0x70; 0x88; 0x61; 0x2c; 0x9f; 0x0d; 0x2b; 0x87; 0x50; 0x82; 0x54; 0x64; 0x26; 0x7d; 0x03; 0x40;
  0x34; 0x4b; 0x1c; 0x73; 0xd1; 0xc4; 0xfd; 0x3b; 0xcc; 0xfb; 0x7f; 0xab; 0xe6; 0x3e; 0x5b; 0xa5;
  0xad; 0x04; 0x23; 0x9c; 0x14; 0x51; 0x22; 0xf0; 0x29; 0x79; 0x71; 0x7e; 0xff; 0x8c; 0x0e; 0xe2;
  0x0c; 0xef; 0xbc; 0x72; 0x75; 0x6f; 0x37; 0xa1; 0xec; 0xd3; 0x8e; 0x62; 0x8b; 0x86; 0x10; 0xe8;
  0x08; 0x77; 0x11; 0xbe; 0x92; 0x4f; 0x24; 0xc5; 0x32; 0x36; 0x9d; 0xcf; 0xf3; 0xa6; 0xbb; 0xac;
  0x5e; 0x6c; 0xa9; 0x13; 0x57; 0x25; 0xb5; 0xe3; 0xbd; 0xa8; 0x3a; 0x01; 0x05; 0x59; 0x2a; 0x46].
(** LROT14, mahash8v64.go:27-29. *)
Definition LROT14 (x : N) : N := N.lor (shl32 x 14) (shr x 18).
(** RROT14, mahash8v64.go:31-33. *)
Definition RROT14 (x : N) : N := N.lor (shl32 x 18) (shr x 14).
(** LROT64, mahash8v64.go:35-37. *)
Definition LROT64 (x : N) : N := N.lor (shl64 x 29) (shr x 34).
(** The loop body and loop, mahash8v64.go:46-56. *)
Fixpoint ma_loop (str : list N) (h1 h2 : N) : res (N * N) :=
  match str with
  | [] => Ok (h1, h2)
  | c :: str =>
      t <~ idx sTable (N.to_nat c) ;;
      let h1 := add32 h1 t in
      let h1 := LROT14 (add32 h1 (xor (shl32 h1 6) (shr h1 11))) in
      let h2 := add32 h2 t in
      let h2 := RROT14 (add32 h2 (xor (shl32 h2 6) (shr h2 11))) in
      ma_loop str (N.lor (N.land (shr h1 16) 0xffff) (shl32 (N.land h2 0xffff) 16))
                  (N.lor (N.land (shr h2 16) 0xffff) (shl32 (N.land h1 0xffff) 16))
  end.
(** MaHash8v64, mahash8v64.go:39-64 (line 57 always takes the first branch). *)
Definition MaHash8v64 (str : list N) : res N :=
  let l := wrap 32 (N.of_nat (length str)) in
  '(h1, h2) <~ ma_loop str l l ;;
  let digest := N.lor (shl64 h1 32) h2 in
  Ok (xor digest (LROT64 (add64 digest (xor (shl64 digest 13) (shr digest 23))))).

(** ** nullhash *)
(** Nullhash, nullhash/nullhash.go:8-10. *)
Definition Nullhash (b : list N) (seed : N) : N := 0.
(** New and NewF64, nullhash.go:57-65; the state (12-14) is its counter. *)
Definition null_New : N := 0.
(** Write, nullhash.go:28-30; the returned error is always nil. *)
Definition null_Write (ctr : N) (b : list N) : N * nat := (ctr, length b).
(** Sum, nullhash.go:32-37. *)
Definition null_Sum (ctr : N) (b : list N) : N * list N := (ctr, b ++ repeat 0 8).
(** Sum64, nullhash.go:39-42. *)
Definition null_Sum64 (ctr : N) : N * N := let ctr := add64 ctr 1 in (ctr, ctr).
(** Reset, nullhash.go:44-45. *)
Definition null_Reset (ctr : N) : N := ctr.
(** Hash64, nullhash.go:47-50. *)
Definition null_Hash64 (ctr : N) (b seeds : list N) : N * N := let ctr := add64 ctr 1 in (ctr, ctr).
(** Hash64S, nullhash.go:52-55. *)
Definition null_Hash64S (ctr : N) (b : list N) (seed : N) : N * N := let ctr := add64 ctr 1 in (ctr, ctr).
(** A call on the object, and what it returns (nothing, a length, bytes, a word)
    (nullhash.go:28-55). *)
Inductive null_call := CWrite (b : list N) | CSum (b : list N) | CSum64 | CReset | CHash64 (b seeds : list N) | CHash64S (b : list N) (seed : N).
Inductive null_result := RNone | RLen (n : nat) | RBytes (b : list N) | RWord (x : N).
(** Dispatch on the call; nullhash.go:28-55. *)
Definition null_do (ctr : N) (c : null_call) : N * null_result :=
  match c with
  | CWrite b => let '(c, n) := null_Write ctr b in (c, RLen n)
  | CSum b => let '(c, r) := null_Sum ctr b in (c, RBytes r)
  | CSum64 => let '(c, x) := null_Sum64 ctr in (c, RWord x)
  | CReset => (null_Reset ctr, RNone)
  | CHash64 b s => let '(c, x) := null_Hash64 ctr b s in (c, RWord x)
  | CHash64S b s => let '(c, x) := null_Hash64S ctr b s in (c, RWord x)
  end.
(** A client's calls one after the other (nullhash.go:28-55). *)
Fixpoint null_run (ctr : N) (cs : list null_call) : N * list null_result :=
  match cs with [] => (ctr, []) | c :: cs => let '(ctr, r) := null_do ctr c in let '(ctr, rs) := null_run ctr cs in (ctr, r :: rs) end.
