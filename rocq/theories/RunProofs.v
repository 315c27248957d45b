(** Proofs about RunModel. *)
From Coq Require Import NArith ZArith List Arith String Bool Lia.
From Verif Require Import Words WordLemmas ListLemmas Mem KeccakModel HashfModel HashfSpec HashfProofs HashfProps HtModel SmhModel SmhSpec SmhProofs
  SmhBits SmhKeys SmhKeys2 SmhFlip SmhProps SmhProps2 RunModel RunSpec.
Import ListNotations.
Open Scope N_scope.
Open Scope list_scope.

(** ** Programs and a hash that is a function *)
Fixpoint with_fun {A} (hf : list N -> N -> N) (p : prog A) : A :=
  match p with Done a => a | Ask b o n s f => with_fun hf (f (hf (firstn n (skipn o b)) s)) end.
(** Every slice hashed is inside its array and has at least [m] bytes. *)
Fixpoint valid {A} (m : nat) (p : prog A) : Prop :=
  match p with
  | Done _ => True
  | Ask b o n s f => bytes_ok b /\ (o + n <= length b)%nat /\ N.of_nat n < 2 ^ 64 /\ (m <= n)%nat /\ s < 2 ^ 64 /\ forall h, valid m (f h)
  end.
Lemma with_bind {A B} hf (p : prog A) (f : A -> prog B) : with_fun hf (bind p f) = with_fun hf (f (with_fun hf p)).
Proof. induction p as [a|b o n s g IH]; cbn [bind with_fun]; auto. Qed.
Lemma with_each {A B} hf (f : A -> prog B) l : with_fun hf (each_of f l) = map (fun a => with_fun hf (f a)) l.
Proof. induction l as [|a l IH]; [reflexivity|]. cbn [each_of map]. now rewrite !with_bind, IH. Qed.
Lemma valid_bind {A B} m (p : prog A) (f : A -> prog B) : valid m p -> (forall a, valid m (f a)) -> valid m (bind p f).
Proof. intros V F. induction p as [a|b o n s g IH]; cbn [bind valid] in *; [auto|]. intuition. Qed.
Lemma valid_each {A B} m (f : A -> prog B) l : (forall a, In a l -> valid m (f a)) -> valid m (each_of f l).
Proof.
  induction l as [|a l IH]; intros F; [exact I|]. cbn [each_of]. apply valid_bind; [apply F; now left|]. intros x.
  apply valid_bind; [apply IH; intros; apply F; now right|]. intros; exact I.
Qed.
Lemma valid_done {A} m (a : A) : valid m (Done a).
Proof. exact I. Qed.
Lemma with_ask hf k s : with_fun hf (ask k s) = hf k s.
Proof. cbn [ask with_fun skipn]. now rewrite firstn_all. Qed.
Lemma with_verdict hf ks : with_fun hf (askVerdict ks) = verdict hf ks.
Proof.
  unfold askVerdict. rewrite with_bind, with_each. cbn [with_fun]. unfold verdict, BytesHash. do 2 f_equal. apply map_ext. intros k. apply with_ask.
Qed.
Definition small_key (m : nat) (k : list N) : Prop := bytes_ok k /\ (m <= length k)%nat /\ N.of_nat (length k) < 2 ^ 64.
Lemma valid_ask m k s : small_key m k -> s < 2 ^ 64 -> valid m (ask k s).
Proof. intros (B & L & L64) Hs. unfold ask. cbn [valid]. repeat split; auto; lia. Qed.
Lemma valid_verdict m ks : Forall (small_key m) ks -> valid m (askVerdict ks).
Proof.
  intros H. apply valid_bind; [|intros; exact I]. apply valid_each. intros k Hk. apply valid_ask; [|reflexivity].
  rewrite Forall_forall in H. now apply H.
Qed.

(** ** Programs and Hashf *)
Definition slice_of (w : world) (b : list N) (o n : nat) : slice := mkSlice (length (mem w)) o n (length b - o).
Lemma read_new w b o n : read (mem w ++ [b]) (slice_of w b o n) = firstn n (skipn o b).
Proof. unfold read, slice_of, array. cbn [len off arr]. now rewrite nth_middle. Qed.
Lemma slice_new w b o n : (o + n <= length b)%nat -> slice_in (mem w ++ [b]) (slice_of w b o n).
Proof.
  intros H. unfold slice_in, slice_of, array. cbn [len off arr cap]. rewrite nth_middle, app_length. cbn [length]. lia.
Qed.
Lemma world_new w b : world_ok w -> bytes_ok b -> world_ok (withMem w (mem w ++ [b])).
Proof.
  intros O B. apply withMem_ok; [exact O|apply Forall_app; split; [apply O|now constructor]|rewrite app_length; lia|].
  intros a Ha. unfold array. now rewrite app_nth1.
Qed.
Lemma through_bind {A B} e grow name (p : prog A) (f : A -> prog B) : forall w,
  through e grow name (bind p f) w = (x <~ through e grow name p w ;; through e grow name (f (fst x)) (snd x)).
Proof.
  induction p as [a|b o n s g IH]; intros w; cbn [bind through]; [reflexivity|].
  destruct (Hashf e grow (withMem w (mem w ++ [b])) name (mkSlice (length (mem w)) o n (length b - o)) s) as [[w1 h]| | |]; cbn [rbind fst snd]; auto.
Qed.
Lemma through_ok {A} e grow name (p : prog A) : ext_ok e -> counter name = false -> In name (map fst (table e)) -> valid (shortest name) p ->
  forall w, world_ok w -> exists w', through e grow name p w = Ok (with_fun (answer e name) p, w') /\ world_ok w'.
Proof.
  intros He Hc Ht. induction p as [a|b o n s f IH]; intros V w O; cbn [valid through with_fun] in *; [eauto|].
  destruct V as (B & L & L64 & Lm & Hs & V). fold (slice_of w b o n).
  pose proof (Hashf_right e grow (withMem w (mem w ++ [b])) name (slice_of w b o n) s He (world_new w b O B)) as R.
  specialize (R (slice_new w b o n L)). cbn [slice_of len] in R. specialize (R L64 Hs Hc). unfold right in R.
  cbn [mem withMem] in R. rewrite read_new in R.
  destruct (reference e name (firstn n (skipn o b)) s) as [h|] eqn:E.
  - assert (Ea : answer e name (firstn n (skipn o b)) s = h) by (unfold answer; now rewrite E). rewrite Ea.
    destruct R as (w1 & R & O1 & _). fold (slice_of w b o n) in R. rewrite R. cbn [rbind fst snd]. destruct (IH h (V h) w1 O1) as (w' & E' & O'). eauto.
  - apply reference_none in E. destruct E as [E|E]; [contradiction|]. rewrite firstn_length, skipn_length in E. lia.
Qed.
(** The counters never panic. *)
Lemma through_counts {A} e grow name (p : prog A) : counter name = true -> forall w, exists a w', through e grow name p w = Ok (a, w').
Proof.
  intros Hc. induction p as [a|b o n s f IH]; intros w; cbn [through]; [eauto|].
  assert (H : exists w1 h, Hashf e grow (withMem w (mem w ++ [b])) name (mkSlice (length (mem w)) o n (length b - o)) s = Ok (w1, h)).
  { unfold counter in Hc. apply orb_true_iff in Hc. destruct Hc as [Hc|Hc]; apply String.eqb_eq in Hc; subst name; unfold Hashf; cbn -[N.pow N.modulo mem read]; eauto. }
  destruct H as (w1 & h & ->). cbn [rbind fst snd]. apply IH.
Qed.
(** The first call decides. *)
Lemma through_first {A} e grow name b o n s (f : N -> prog A) w : ext_ok e -> world_ok w -> bytes_ok b -> (o + n <= length b)%nat ->
  N.of_nat n < 2 ^ 64 -> s < 2 ^ 64 -> counter name = false -> ~ In name (map fst (table e)) \/ (n < shortest name)%nat ->
  through e grow name (Ask b o n s f) w = Panics.
Proof.
  intros He O B L L64 Hs Hc H. cbn [through]. fold (slice_of w b o n).
  pose proof (proj2 (c44_panics e grow (withMem w (mem w ++ [b])) name (slice_of w b o n) s He (world_new w b O B) (slice_new w b o n L) L64 Hs Hc)) as P.
  now rewrite P.
Qed.

(** ** SMHasher *)
Definition randoms_ok (rr : run_randoms) : Prop :=
  (forall k n i, bytes_ok (r_b (rr_of rr) k n i) /\ length (r_b (rr_of rr) k n i) = 176%nat /\
                 bytes_ok (r_c (rr_of rr) k n i) /\ length (r_c (rr_of rr) k n i) = 176%nat) /\
  (forall n i, bytes_ok (r_cyclic (rr_of rr) n i) /\ length (r_cyclic (rr_of rr) n i) = (n - 4)%nat) /\
  Forall (Forall (fun k => key_ok k /\ (bits k <= 1600)%nat)) (rr_keys rr).
Lemma key_sent_bytes k : key_sent k = key_bytes k.
Proof. destruct k; cbn [key_sent key_bytes]; [reflexivity| |]; unfold number_bytes; cbn [map seq]; rewrite !land255; reflexivity. Qed.
Lemma key_small k : key_ok k -> (bits k <= 1600)%nat -> small_key 0 (key_sent k).
Proof.
  intros O L. rewrite key_sent_bytes. split; [apply byte_string_ok; now apply key_bytes_ok|]. rewrite key_bits in L. change (2 ^ 64) with 18446744073709551616. lia.
Qed.
Lemma existsb_count l : existsb (fun b : bool => b) l = negb (Nat.eqb (List.length (filter (fun b => b) l)) 0).
Proof. induction l as [|[|] l IH]; cbn; auto. Qed.
Lemma filter_map_len {A} (f : A -> bool) l : List.length (filter (fun b => b) (map f l)) = List.length (filter f l).
Proof. induction l as [|a l IH]; [reflexivity|]. cbn [map filter]. destruct (f a); cbn [List.length]; now rewrite IH. Qed.
Lemma with_stest hf rr t : with_fun hf (ask_stest rr t) = run_stest hf (rr_of rr) t.
Proof.
  destruct t; cbv beta iota zeta delta [ask_stest run_stest].
  - unfold askSanity, TestSmhasherSanity. rewrite with_bind, with_each. cbn [with_fun]. unfold complaints. rewrite existsb_count.
    assert (E : forall m, List.length (filter (fun b => b) (map (fun a => with_fun hf (let '(k, n, i) := a in
        let b := r_b (rr_of rr) k n i in
        let c := firstn (16 + i) (r_c (rr_of rr) k n i) ++ firstn n (skipn 16 b) ++ skipn (16 + i + n) (r_c (rr_of rr) k n i) in
        Ask b 16 n 0 (fun x => Ask c (16 + i) n 0 (fun y => Done (negb (x =? y)))))) m)) =
      List.length (filter (fun '(k, n, i) => sanity_round hf (r_b (rr_of rr) k n i) (r_c (rr_of rr) k n i) n i) m)).
    { intros m. rewrite filter_map_len. f_equal. apply filter_ext. intros ((k & n) & i). reflexivity. }
    now rewrite E.
  - rewrite with_bind. unfold askSeed. rewrite with_bind, with_each. cbn [with_fun]. unfold TestSmhasherSeed, StringHash.
    rewrite (map_ext _ (fun i => hf (str "hello") (N.of_nat i)) (fun i => with_ask hf (str "hello") (N.of_nat i))). reflexivity.
  - unfold askText. now rewrite !with_bind, !with_verdict.
  - unfold askWindowed. rewrite !with_bind. cbn [with_fun]. rewrite !with_each. unfold TestSmhasherWindowed, windowed.
    assert (E : forall k, map (fun r => with_fun hf match window_keys r (N.to_nat 65536) k with Some ks => askVerdict (map key_sent ks) | None => Done false end) (seq 0 (bits k)) =
      map (fun r => match window_keys r (N.to_nat 65536) k with Some ks => check (set_of (map (key_hash hf) ks)) | None => false end) (seq 0 (bits k))).
    { intros k. apply map_ext. intros r. destruct (window_keys r (N.to_nat 65536) k) as [ks|]; [|reflexivity]. rewrite with_verdict. unfold verdict, BytesHash.
      rewrite map_map. do 2 f_equal. apply map_ext. intros x. now rewrite key_hash_bytes, key_sent_bytes. }
    now rewrite !E.
  - unfold askAvalanche. now rewrite with_bind.
  - unfold askPermutation, TestSmhasherPermutation. rewrite with_bind, with_each. cbn [with_fun].
    assert (E : map (fun a => with_fun hf (let '(n, s) := a in askVerdict (permutation_keys s n))) Permutations = map (fun '(n, s) => verdict hf (permutation_keys s n)) Permutations)
      by (apply map_ext; intros (n & s); apply with_verdict). now rewrite E.
  - unfold askSparse, TestSmhasherSparse. rewrite with_bind, with_each. cbn [with_fun].
    assert (E : map (fun a => with_fun hf (let '(n, k) := a in askVerdict (sparse_keys n k))) sparse_pairs = map (fun '(n, k) => verdict hf (sparse_keys n k)) sparse_pairs)
      by (apply map_ext; intros (n & k); apply with_verdict). now rewrite E.
  - unfold askCyclic, TestSmhasherCyclic. rewrite with_bind, with_each. cbn [with_fun].
    assert (E : map (fun n => with_fun hf (askVerdict (cyclic_keys n (r_cyclic (rr_of rr) n) (N.to_nat 1000000)))) (seq 4 9) =
      map (fun n => verdict hf (cyclic_keys n (r_cyclic (rr_of rr) n) (N.to_nat 1000000))) (seq 4 9))
      by (apply map_ext; intros n; apply with_verdict). now rewrite E.
  - rewrite with_bind, with_verdict. cbn [with_fun]. unfold TestSmhasherTwoNonzero. reflexivity.
  - rewrite with_bind, with_verdict. cbn [with_fun]. unfold TestSmhasherSmallKeys. reflexivity.
  - rewrite with_bind, with_verdict. cbn [with_fun]. unfold TestSmhasherZeros. unfold Short. reflexivity.
  - rewrite with_bind, with_verdict. cbn [with_fun]. unfold TestSmhasherAppendedZeros. reflexivity.
Qed.
Lemma with_SMhasher hf rr name v : with_fun hf (askSMhasher rr v) = RunSMhasher hf (rr_of rr) name v.
Proof.
  unfold askSMhasher, RunSMhasher. rewrite with_each. apply map_ext. intros (t & desc). now rewrite with_bind, with_stest.
Qed.
