(** Proofs for C108: lines of "-sm" for particular hash functions. *)
From Coq Require Import NArith ZArith List Arith String Bool Lia Permutation.
From Verif Require Import Words WordLemmas ListLemmas Bij Mem KeccakModel HashfModel HashfSpec HashfProofs HashfProps HtModel HtSpec HtProofs HtMore HtKeys
  SmhModel SmhSpec SmhProofs SmhBits SmhKeys SmhKeys2 SmhFlip SmhProps SmhProps2 RunModel RunSpec RunProps RunLinesData.
From Verif Require Mm3Spec Mm3Model Mm3Proofs Mm3Props Mm3Small FarmSpec FarmMore SmallModel SmallSpec SmallProofs SmallProps.
Import ListNotations.
Open Scope N_scope.
Open Scope list_scope.

(** ** Sets of keys *)
Inductive family := FText (p q : list N) | FSparse (n k : nat) | FPerm (n : nat) (s : list N) | FSmall (n : nat) (short : bool) | FTwo (l : list nat).
Definition families : list family :=
  [FText (str "Foo") (str "Bar"); FText (str "FooBar") []; FText [] (str "FooBar")]
  ++ map (fun '(n, k) => FSparse n k) sparse_pairs ++ map (fun '(n, s) => FPerm n s) Permutations ++ [FSmall 256 Short; FTwo (seq 2 15)].
Definition fkeys (f : family) : list (list N) :=
  match f with
  | FText p q => text_keys alphabet p q
  | FSparse n k => sparse_keys n k
  | FPerm n s => permutation_keys s n
  | FSmall n short => small_keys n short
  | FTwo l => flat_map (fun n => fst (twoNonZero n)) l
  end.
Definition fspec (f : family) (k : list N) : Prop :=
  match f with
  | FText p q => exists m, List.length m = 4%nat /\ incl m alphabet /\ k = p ++ m ++ q
  | FSparse n b => (8 * List.length k = n)%nat /\ byte_string k /\ (List.length (ones_from 0 k) <= b)%nat
  | FPerm n s => exists vs, (List.length vs <= n)%nat /\ incl vs s /\ k = flat_map block vs
  | FSmall _ _ => byte_string k /\ (1 <= List.length k <= 3)%nat
  | FTwo _ => (2 <= List.length k <= 16)%nat /\ byte_string k /\ (List.length (nonzero k) <= 2)%nat
  end.
Lemma fkeys_small n b : fkeys (FSmall n b) = small_keys n b.
Proof. reflexivity. Qed.
Lemma fkeys_two l : fkeys (FTwo l) = flat_map (fun n => fst (twoNonZero n)) l.
Proof. reflexivity. Qed.
Lemma family_verdict f hf : In f families -> verdict hf (fkeys f) = true <-> collide (fun k => hf k 0) (fspec f).
Proof.
  intros I. unfold families in I. rewrite !in_app_iff, !in_map_iff in I. destruct I as [I|[I|[I|I]]].
  - assert (T : exists p q, f = FText p q) by (cbn [In] in I; repeat (destruct I as [<-|I]; [eauto|]); destruct I). destruct T as (p & q & ->).
    cbn [fkeys fspec]. apply verdict_iff; [apply le27; rewrite text_length; vm_compute; discriminate|]. apply c78_text.
  - destruct I as ((n & k) & <- & I). assert (E8 : (n = 8 * (n / 8))%nat).
    { unfold sparse_pairs in I. cbn [In] in I. repeat (destruct I as [I|I]; [injection I as <- <-; reflexivity|]). destruct I. }
    apply verdict_iff; cbn [fkeys fspec].
    + unfold sparse_keys. rewrite setbits_eq; [|apply zeros_bytes|].
      * cbn [fst]. apply le27. rewrite sparse_length, repeat_length, Nat.sub_0_r.
        pose proof sparse_counts as C. rewrite forallb_forall in C. specialize (C _ I). cbv beta iota in C. apply N.leb_le in C.
        change (2 ^ 27) with 134217728 in C. exact C.
      * intros j _. unfold bit. fold (zeros (n / 8)). rewrite nth_zeros. apply N.bits_0.
    + rewrite E8 at 1. destruct (c49_sparse_all (n / 8) k) as [A B]. split; [exact A|]. intros y. rewrite B. unfold fspec. intuition lia.
  - destruct I as ((n & s) & <- & I).
    assert (T : forallb (fun '(n, s) => nodupb s && forallb (fun v => v <? 2 ^ 32) s && (perm_count n (N.of_nat (List.length s)) <=? 134217728)) Permutations = true)
      by (vm_compute; reflexivity).
    rewrite forallb_forall in T. specialize (T _ I). cbv beta iota in T. apply andb_true_iff in T. destruct T as [T T3]. apply andb_true_iff in T. destruct T as [T1 T2].
    apply verdict_iff; cbn [fkeys fspec].
    + apply le27. rewrite permutation_length. now apply N.leb_le.
    + apply permutation_enum; [now apply nodupb_ok|]. apply Forall_forall. intros v Hv. rewrite forallb_forall in T2. apply N.ltb_lt. now apply T2.
  - cbn [In] in I. destruct I as [<-|[<-|[]]].
    + rewrite fkeys_small. assert (L : N.of_nat (List.length (small_keys 256 Short)) <= 134217728) by (rewrite small_length; discriminate).
      exact (verdict_iff hf _ _ (le27 _ L) small_enum).
    + rewrite fkeys_two. exact (verdict_iff hf _ _ two_all_length two_all_enum).
Qed.

(** Membership by computation. *)
Definition ones8 (c : N) : nat := List.length (filter (fun j => N.testbit c (N.of_nat j)) (seq 0 8)).
Definition ones (k : list N) : nat := fold_right (fun c n => (ones8 c + n)%nat) 0%nat k.
Lemma filter_len_map {A B} (f : A -> B) p l : List.length (filter p (map f l)) = List.length (filter (fun x => p (f x)) l).
Proof. induction l as [|x l IH]; [reflexivity|]. cbn [map filter]. destruct (p (f x)); cbn [List.length]; now rewrite IH. Qed.
Lemma ones_ok k : List.length (ones_from 0 k) = ones k.
Proof.
  unfold ones_from. rewrite Nat.sub_0_r. induction k as [|c k IH]; [reflexivity|]. cbn [ones fold_right]. fold (ones k). rewrite <- IH.
  cbn [List.length]. replace (8 * S (List.length k))%nat with (8 + 8 * List.length k)%nat by lia. rewrite seq_app, filter_app, app_length. apply f_equal2.
  - unfold ones8. apply f_equal. apply filter_ext_in. intros j Hj. apply in_seq in Hj. unfold bit. rewrite Nat.div_small, Nat.mod_small by lia. reflexivity.
  - assert (M : forall m a, seq (8 + a) m = map (fun j => (8 + j)%nat) (seq a m)).
    { induction m as [|m IHm]; intros a; [reflexivity|]. cbn [seq map]. f_equal. apply (IHm (S a)). }
    change (0 + 8)%nat with (8 + 0)%nat. rewrite (M (8 * List.length k)%nat 0%nat), filter_len_map. apply f_equal. apply filter_ext. intros j. unfold bit. replace (8 + j)%nat with (j + 1 * 8)%nat by lia.
    rewrite Nat.div_add, Nat.mod_add by lia. replace (j / 8 + 1)%nat with (S (j / 8)) by lia. reflexivity.
Qed.
Definition same (a b : list N) : bool := if list_eq_dec N.eq_dec a b then true else false.
Definition among (l : list N) (x : N) : bool := existsb (N.eqb x) l.
Fixpoint words4 (k : list N) : list N :=
  match k with a :: b :: c :: d :: r => (a + 256 * b + 65536 * c + 16777216 * d) :: words4 r | _ => [] end.
Definition bytesb (k : list N) : bool := forallb (fun c => c <? 256) k.
Definition member (f : family) (k : list N) : bool :=
  match f with
  | FText p q => let m := firstn 4 (skipn (List.length p) k) in same k (p ++ m ++ q) && Nat.eqb (List.length m) 4 && forallb (among alphabet) m
  | FSparse n b => Nat.eqb (8 * List.length k) n && bytesb k && Nat.leb (ones k) b
  | FPerm n s => let vs := words4 k in same k (flat_map block vs) && Nat.leb (List.length vs) n && forallb (among s) vs
  | FSmall _ _ => bytesb k && Nat.leb 1 (List.length k) && Nat.leb (List.length k) 3
  | FTwo _ => Nat.leb 2 (List.length k) && Nat.leb (List.length k) 16 && bytesb k && Nat.leb (List.length (nonzero k)) 2
  end.
Lemma same_ok a b : same a b = true -> a = b.
Proof. unfold same. destruct (list_eq_dec N.eq_dec a b); [auto|discriminate]. Qed.
Lemma bytesb_ok k : bytesb k = true -> byte_string k.
Proof. unfold bytesb. rewrite forallb_forall. intros H. apply Forall_forall. intros c Hc. now apply N.ltb_lt, H. Qed.
Lemma among_incl s l : forallb (among s) l = true -> incl l s.
Proof. rewrite forallb_forall. intros H x Hx. specialize (H x Hx). apply existsb_exists in H. destruct H as (y & Hy & E). apply N.eqb_eq in E. now subst. Qed.
Lemma member_ok f k : member f k = true -> fspec f k.
Proof.
  destruct f; cbn [member fspec]; cbv zeta; rewrite !andb_true_iff, ?Nat.eqb_eq, ?Nat.leb_le.
  - intros ((A & B) & C). eexists. split; [exact B|]. split; [now apply among_incl|now apply same_ok].
  - rewrite <- ones_ok. intros ((A & B) & C). auto using bytesb_ok.
  - intros ((A & B) & C). eexists. split; [exact B|]. split; [now apply among_incl|now apply same_ok].
  - intros ((A & B) & C). auto using bytesb_ok.
  - intros (((A & B) & C) & D). auto using bytesb_ok.
Qed.
Definition pair_ok (h : list N -> N) (f : family) (o : option (list N * list N)) : bool :=
  match o with None => true | Some (a, b) => member f a && member f b && negb (same a b) && (h a =? h b) end.
Lemma pair_verdict hf f a b : In f families -> pair_ok (fun k => hf k 0) f (Some (a, b)) = true -> verdict hf (fkeys f) = true.
Proof.
  intros I H. cbn [pair_ok] in H. rewrite !andb_true_iff, negb_true_iff in H. destruct H as (((A & B) & C) & D).
  apply family_verdict; [exact I|]. exists a, b. split; [now apply member_ok|]. split; [now apply member_ok|]. split; [|now apply N.eqb_eq].
  intros ->. unfold same in C. destruct (list_eq_dec N.eq_dec b b); congruence.
Qed.
Lemma all_pairs : forallb (fun x => forallb (fun y => pair_ok (fun k => answer toy (fst x) k 0) (fst y) (snd y)) (combine families (snd x))) line_pairs = true.
Proof. vm_compute. reflexivity. Qed.
Lemma same_answer e name k s : In name (map fst line_pairs) -> answer e name k s = answer toy name k s.
Proof.
  intros H. unfold line_pairs in H. cbn [map fst In] in H. repeat (destruct H as [<-|H]; [reflexivity|]). destruct H.
Qed.
Lemma verdict_ext hf hf' ks : (forall k s, hf k s = hf' k s) -> verdict hf ks = verdict hf' ks.
Proof. intros E. unfold verdict, BytesHash. f_equal. f_equal. apply map_ext. auto. Qed.

(** ** Windowed keys *)
Lemma E16 : N.to_nat 65536 = (2 ^ 16)%nat.
Proof. apply Nat2N.inj. rewrite N2Nat.id, Nat2N.inj_pow. reflexivity. Qed.
Lemma window_verdict hf k r : key_ok k -> (16 <= bits k)%nat -> (r < bits k)%nat ->
  (match window_keys r (N.to_nat 65536) k with Some ks => check (set_of (map (key_hash hf) ks)) | None => false end) = true <->
  collide (fun k => hf k 0) (fun y => exists i, (i < 2 ^ 16)%nat /\ rotation (bits k) r i y).
Proof.
  intros O Hb Hr. rewrite E16. destruct (window_keys_spec k r (2 ^ 16) O Hb Hr (le_n _)) as (ks & E & L & R & ND). rewrite E.
  rewrite (map_ext _ (fun k => hf (key_bytes k) 0) (key_hash_bytes hf)).
  rewrite <- (map_map key_bytes (fun y => hf y 0)).
  rewrite check_iff by (rewrite !map_length, L; apply Nat.pow_le_mono_r; lia).
  apply NoDup_map_iff. split; [exact ND|]. intros y. rewrite in_map_iff. split.
  - intros (z & <- & Iz). apply (In_nth _ _ (Int32Key 0)) in Iz. destruct Iz as (i & Hi & <-). rewrite L in Hi. exists i. auto.
  - intros (i & Hi & Rot). exists (nth i ks (Int32Key 0)). split; [|apply nth_In; now rewrite L].
    destruct (R i Hi) as (L1 & B1 & F1). destruct Rot as (L2 & B2 & F2). apply bits_ext; auto; [lia|].
    intros p Hp. rewrite F1, F2 by lia. reflexivity.
Qed.
(** The key made of pattern [i] rotated by [r], and the test that it is. *)
Definition window_bytes (n r : nat) (i : N) : list N :=
  let x := i * 2 ^ N.of_nat r in number_bytes (n / 8) (N.lor (x mod 2 ^ N.of_nat n) (x / 2 ^ N.of_nat n)).
Definition rotationb (n r : nat) (i : N) (k : list N) : bool :=
  Nat.eqb (8 * List.length k) n && bytesb k && (i <? 65536) &&
  forallb (fun p => Bool.eqb (bit k p) (N.testbit i (N.of_nat ((p + (n - r)) mod n)))) (seq 0 n).
Lemma rotationb_ok n r i k : rotationb n r i k = true -> exists j, (j < 2 ^ 16)%nat /\ rotation n r j k.
Proof.
  unfold rotationb. rewrite !andb_true_iff, Nat.eqb_eq, N.ltb_lt, forallb_forall. intros (((A & B) & C) & D).
  exists (N.to_nat i). split; [rewrite <- E16; lia|]. split; [exact A|]. split; [now apply bytesb_ok|].
  intros p Hp. rewrite N2Nat.id. apply Bool.eqb_prop, D, in_seq. lia.
Qed.
Definition window_ok (h : list N -> N) (x : nat * nat * (N * N)) : bool :=
  let '(n, r, (i, j)) := x in let a := window_bytes n r i in let b := window_bytes n r j in
  Nat.ltb r n && rotationb n r i a && rotationb n r j b && negb (same a b) && (h a =? h b).
Lemma window_collides h n r i j : window_ok h (n, r, (i, j)) = true -> (r < n)%nat /\ collide h (fun y => exists i, (i < 2 ^ 16)%nat /\ rotation n r i y).
Proof.
  unfold window_ok. cbv zeta. rewrite !andb_true_iff, negb_true_iff, Nat.ltb_lt. intros ((((L & A) & B) & C) & D). split; [exact L|].
  exists (window_bytes n r i), (window_bytes n r j). split; [now apply rotationb_ok in A|]. split; [now apply rotationb_ok in B|].
  split; [|now apply N.eqb_eq]. intros E. rewrite E in C. unfold same in C. destruct (list_eq_dec N.eq_dec (window_bytes n r j) (window_bytes n r j)); congruence.
Qed.
Lemma all_windows : forallb (fun x => window_ok (fun k => answer toy (fst x) k 0) (snd x)) window_pairs = true.
Proof. vm_compute. reflexivity. Qed.
Lemma window_count_pos hf n r i j : In n [32; 64]%nat -> window_ok (fun k => hf k 0) (n, r, (i, j)) = true -> (0 < snd (TestSmhasherWindowed hf))%nat.
Proof.
  intros I H. destruct (window_collides _ _ _ _ _ H) as [L C]. apply c79_windowed. exists n, r. split; [|auto]. cbn [In] in *. tauto.
Qed.
Lemma complaints_app a b : complaints (a ++ b) = (complaints a + complaints b)%nat.
Proof. unfold complaints. now rewrite filter_app, app_length. Qed.
Lemma complaints_count {A} (f g : A -> bool) l : (forall x, In x l -> g x = true -> f x = true) -> (List.length (filter g l) <= complaints (map f l))%nat.
Proof.
  intros H. unfold complaints. induction l as [|x l IH]; [reflexivity|]. cbn [map filter].
  specialize (IH (fun y Hy => H y (or_intror Hy))). pose proof (H x (or_introl eq_refl)) as Hx.
  destruct (g x); [rewrite (Hx eq_refl); cbn [List.length]; lia|]. destruct (f x); cbn [List.length]; lia.
Qed.
Lemma complaints_le l : (complaints l <= List.length l)%nat.
Proof. unfold complaints. induction l as [|[] l IH]; cbn [filter List.length]; lia. Qed.
(** At least as many complaints as rotations of 32-bit keys with a collision. *)
Lemma window_rotations hf rs : NoDup rs -> (forall r, In r rs -> exists i j, window_ok (fun k => hf k 0) (32%nat, r, (i, j)) = true) ->
  (List.length rs <= snd (TestSmhasherWindowed hf))%nat.
Proof.
  intros ND H. unfold TestSmhasherWindowed. cbn [snd]. rewrite complaints_app. unfold windowed at 1.
  match goal with |- (_ <= complaints (map ?f ?l) + _)%nat => pose proof (complaints_count f (fun r => existsb (Nat.eqb r) rs) l) as C end.
  cbn [bits] in *. apply Nat.le_trans with (List.length (filter (fun r => existsb (Nat.eqb r) rs) (seq 0 32))).
  - apply NoDup_incl_length; [exact ND|]. intros r Hr. apply filter_In. destruct (H r Hr) as (i & j & W). apply window_collides in W.
    split; [apply in_seq; lia|]. apply existsb_exists. exists r. split; [exact Hr|apply Nat.eqb_refl].
  - enough (X : (List.length (filter (fun r => existsb (Nat.eqb r) rs) (seq 0 32)) <= complaints (map (fun r => match window_keys r (N.to_nat 65536) (Int32Key 0) with
        | Some ks => check (set_of (map (key_hash hf) ks)) | None => false end) (seq 0 32)))%nat) by lia.
    apply C. intros r Hr E. apply existsb_exists in E. destruct E as (r' & Ir & E). apply Nat.eqb_eq in E. subst r'.
    destruct (H r Ir) as (i & j & W). apply window_collides in W. apply (window_verdict hf (Int32Key 0) r); [reflexivity|cbn; lia|cbn; lia|exact (proj2 W)].
Qed.

(** ** Cyclic keys *)
Definition cyclic_key (rb : nat -> nat -> list N) (n : nat) (c : N) : list N :=
  cycled 8 ([c * 79 mod 97; c * 43 mod 137; c * 151 mod 197; c * 199 mod 251] ++ rb n (N.to_nat c)).
Lemma cyclic_verdict hf rb n : (forall n i, List.length (rb n i) = (n - 4)%nat) -> (4 <= n)%nat ->
  forall i j, i < j < 1000000 -> hf (cyclic_key rb n i) 0 = hf (cyclic_key rb n j) 0 ->
  verdict hf (cyclic_keys n (rb n) (N.to_nat 1000000)) = true.
Proof.
  intros Hr Hn i j Hij E.
  assert (M : cyclic_keys n (rb n) (N.to_nat 1000000) = map (cyclic_key rb n) (map N.of_nat (seq 0 (N.to_nat 1000000)))).
  { rewrite cyclic_eq by auto. rewrite map_map. apply map_ext. intros c. unfold cyclic_key. rewrite Nat2N.id. reflexivity. }
  assert (ND : NoDup (cyclic_keys n (rb n) (N.to_nat 1000000))).
  { apply cyclic_nodup; auto. rewrite N2Nat.id. discriminate. }
  assert (Im : forall k, In k (cyclic_keys n (rb n) (N.to_nat 1000000)) <-> exists c, c < 1000000 /\ k = cyclic_key rb n c).
  { intros k. rewrite M, in_map_iff. split.
    - intros (c & <- & Hc). apply in_map_iff in Hc. destruct Hc as (a & <- & Ha). apply in_seq in Ha. exists (N.of_nat a). split; [lia|reflexivity].
    - intros (c & Hc & ->). exists c. split; [reflexivity|]. apply in_map_iff. exists (N.to_nat c). split; [apply N2Nat.id|]. apply in_seq. lia. }
  assert (Len : N.of_nat (List.length (cyclic_keys n (rb n) (N.to_nat 1000000))) <= 134217728) by (rewrite M, !map_length, seq_length; lia).
  apply (verdict_iff hf _ _ (le27 _ Len) (conj ND Im)).
  exists (cyclic_key rb n i), (cyclic_key rb n j). split; [exists i; split; [lia|reflexivity]|]. split; [exists j; split; [lia|reflexivity]|].
  split; [|exact E]. intros K.
  assert (Q : N.to_nat i = N.to_nat j).
  { apply head4_inj; [lia|lia|]. apply (f_equal (firstn 4)) in K. unfold cyclic_key, cycled in K. cbn [repeat List.concat] in K.
    rewrite <- !app_assoc in K. rewrite !firstn_app_exact in K by reflexivity. unfold head4. rewrite !N2Nat.id. exact K. }
  lia.
Qed.
Definition cyclic_ok (h : list N -> N) (x : N * N) : bool :=
  let key c := cycled 8 [c * 79 mod 97; c * 43 mod 137; c * 151 mod 197; c * 199 mod 251] in
  (fst x <? snd x) && (snd x <? 1000000) && (h (key (fst x)) =? h (key (snd x))).
Lemma all_cyclic : forallb (fun x => cyclic_ok (fun k => answer toy (fst x) k 0) (snd x)) cyclic_pairs = true.
Proof. vm_compute. reflexivity. Qed.
Lemma cyclic_pos hf rb x : (forall n i, List.length (rb n i) = (n - 4)%nat) -> cyclic_ok (fun k => hf k 0) x = true ->
  (0 < snd (TestSmhasherCyclic hf rb))%nat.
Proof.
  intros Hr H. unfold cyclic_ok in H. cbv zeta in H. rewrite !andb_true_iff, !N.ltb_lt, N.eqb_eq in H. destruct H as ((A & B) & C).
  unfold TestSmhasherCyclic. cbn [snd]. apply complaints_pos. exists true. split; [|reflexivity]. apply in_map_iff. exists 4%nat. split; [|apply in_seq; lia].
  apply (cyclic_verdict hf rb 4 Hr ltac:(lia) (fst x) (snd x)); [lia|]. unfold cyclic_key.
  assert (Z : forall i, rb 4%nat i = []) by (intros i; apply length_zero_iff_nil; now rewrite Hr). rewrite !Z, !app_nil_r. exact C.
Qed.
