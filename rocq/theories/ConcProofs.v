(** Goroutines that call Hashf: one call, step by step. *)
From Coq Require Import NArith ZArith List Arith Lia String.
From Verif Require Import Words WordLemmas ListLemmas Mem KeccakModel KeccakProofs3 Mm3Model HashfModel HashfSpec HashfProofs ConcModel ConcSpec.
From Verif Require HashfProps.
From Verif Require GomapModel SmallModel JenkinsModel SpookyModel FarmModel MetroModel SipModel.
Import ListNotations.
Open Scope N_scope.

Fixpoint exec (cs : list step) (s : shared) (r : list N) : res (shared * list N) :=
  match cs with [] => Ok (s, r) | c :: cs => '(s, r) <~ c s r ;; exec cs s r end.
Lemma exec_app c1 c2 s r : exec (c1 ++ c2) s r = ('(s, r) <~ exec c1 s r ;; exec c2 s r).
Proof. revert s r; induction c1 as [|c c1 IH]; intros s r; [reflexivity|]. cbn [exec app]. destruct (c s r) as [[s' r']| | |]; cbn [rbind]; auto. Qed.

(** ** A call without interruption is Hashf *)
Definition whole (x : code) : list step := fst x ++ snd x.
Definition seen (x : res (shared * list N)) : res (world * N * string * bool) :=
  '(s, r) <~ x ;; Ok (vars s, reg 0 r, hf2 s, lock s).
Definition told (s : shared) (x : res (world * N)) : res (world * N * string * bool) :=
  '(w, h) <~ x ;; Ok (w, h, hf2 s, lock s).
Lemma local_straight s k f : seen (exec (whole (local k f)) s []) = told s (pure (vars s) (f (read (mem (vars s)) k))).
Proof. unfold local, whole, compute, pure. cbn [fst snd app exec]. destruct (f _) as [h| | |]; reflexivity. Qed.
Lemma via_tl_straight s k f : seen (exec (whole (via_tl k f)) s []) = told s (pure (vars s) (xor_pair (f (read (mem (vars s)) k)))).
Proof. unfold via_tl, whole, compute, pure, xor_pair. cbn [fst snd app exec]. destruct (f _) as [[x y]| | |]; reflexivity. Qed.
Lemma set_acc_same s n x : acc (set_acc s n x) n = x.
Proof. cbn. now rewrite String.eqb_refl. Qed.
Lemma via_ext_straight grow s k n dg get put :
  (forall w m fp, mem (put w m fp) = m /\ get (put w m fp) = fp) ->
  (forall w m fp m' fp', put (put w m fp) m' fp' = put w m' fp') ->
  seen (exec (whole (via_ext grow k n dg get put)) s []) =
  told s ('(m, fp, h) <~ ext_digest grow (mem (vars s)) (get (vars s)) (dg (read (mem (vars s)) k)) ;; Ok (put (vars s) m fp, h)).
Proof.
  intros L2 L3. unfold via_ext, whole, ext_digest, assign, look. cbn [fst snd app exec rbind]. rewrite !set_acc_same.
  cbn [vars set_acc set_vars app]. rewrite !(proj1 (L2 _ _ _)), !(proj2 (L2 _ _ _)).
  destruct (append _ _ _ _) as [m fp]. cbn [vars set_acc set_vars]. rewrite L3, (proj1 (L2 _ _ _)), (proj2 (L2 _ _ _)).
  destruct (be8 _) as [h| | |]; reflexivity.
Qed.
Lemma via_sha1_straight grow s k dg :
  seen (exec (whole (via_sha1 grow k dg)) s []) =
  told s ('(m, fp, h) <~ ext_digest grow (mem (vars s)) (fp20 (vars s)) (dg (read (mem (vars s)) k)) ;; Ok (set_mem_fp20 (vars s) m fp, h)).
Proof.
  unfold via_sha1, whole, ext_digest, assign, look. cbn [fst snd app exec rbind vars set_acc set_vars fp20 set_mem_fp20 mem acc String.eqb Ascii.eqb Bool.eqb].
  destruct (append _ _ _ _) as [m fp]. cbn [vars set_acc set_vars mem fp20 set_mem_fp20]. destruct (be8 _) as [h| | |]; reflexivity.
Qed.
Lemma via_pg_straight grow s k get put getd putd :
  (forall w m fp, mem (put w m fp) = m /\ get (put w m fp) = fp /\ getd (put w m fp) = getd w) ->
  (forall w d, mem (putd w d) = mem w /\ get (putd w d) = get w /\ getd (putd w d) = d) ->
  (forall w m fp m' fp', put (put w m fp) m' fp' = put w m' fp') ->
  (forall w d d', putd (putd w d) d' = putd w d') ->
  (forall w m fp d, put (putd w d) m fp = putd (put w m fp) d) ->
  seen (exec (whole (via_pg grow k get put getd putd)) s []) =
  told s ('(m, fp, d, h) <~ pg_digest grow (mem (vars s)) (get (vars s)) (getd (vars s)) k ;; Ok (putd (put (vars s) m fp) d, h)).
Proof.
  intros L1 L2 L3 L4 L5. unfold via_pg, whole, pg_digest, assign, change, look. cbn [fst snd app exec rbind vars set_vars].
  assert (M : forall w m fp, mem (put w m fp) = m) by (intros; apply L1). assert (G : forall w m fp, get (put w m fp) = fp) by (intros; apply L1).
  assert (D : forall w m fp, getd (put w m fp) = getd w) by (intros; apply L1).
  assert (M' : forall w d, mem (putd w d) = mem w) by (intros; apply L2). assert (G' : forall w d, get (putd w d) = get w) by (intros; apply L2).
  assert (D' : forall w d, getd (putd w d) = d) by (intros; apply L2).
  rewrite ?M', ?D', ?G', ?M, ?D, ?G. destruct (Write _ _ _ _ _) as [[[m d] n]| | |]; try reflexivity. cbn [rbind vars set_vars].
  rewrite ?L5, ?L3, ?L4, ?M', ?D', ?G', ?M, ?D, ?G. destruct (Sum _ _ _ _) as [[m' fp]| | |]; try reflexivity. cbn [rbind vars set_vars].
  rewrite ?L5, ?L3, ?L4, ?M', ?D', ?G', ?M, ?D, ?G. destruct (be8 _) as [h| | |]; reflexivity.
Qed.
Lemma sip_seeds seed w : firstn 8 (firstn 8 (sipSeedSet seed) ++ skipn 8 (seeds w)) ++ firstn 8 (firstn 8 (sipSeedSet seed) ++ skipn 8 (seeds w)) = sipSeedSet seed.
Proof. reflexivity. Qed.
Lemma straight e grow s name k seed :
  seen (exec (whole (hashf_code e grow name k seed)) s []) = told s (Hashf e grow (vars s) name k seed).
Proof.
  unfold hashf_code, Hashf. cbv zeta.
  repeat lazymatch goal with
  | |- seen (exec (whole (if ?c then _ else _)) _ _) = _ => destruct c; [|]
  end;
  lazymatch goal with
  | |- seen (exec (whole (local _ _)) _ _) = _ => apply local_straight
  | |- seen (exec (whole (via_tl _ _)) _ _) = _ => apply via_tl_straight
  | |- seen (exec (whole (via_ext _ _ _ _ _ _)) _ _) = _ => apply via_ext_straight; intros; repeat split; reflexivity
  | |- seen (exec (whole (via_pg _ _ _ _ _ _)) _ _) = _ => apply via_pg_straight; intros; repeat split; reflexivity
  | |- seen (exec (whole (via_sha1 _ _ _)) _ _) = _ => apply via_sha1_straight
  | |- _ => idtac
  end.
  - reflexivity.
  - unfold whole. cbn [fst snd app exec]. destruct (SmallModel.null_Hash64S _ _ _); reflexivity.
  - reflexivity.
  - unfold whole, compute, pure. cbn [fst snd app exec]. destruct (JenkinsModel.jenkins364 _ _ _ _) as [[c b]| | |]; reflexivity.
  - unfold whole, compute, pure. cbn [fst snd app exec]. destruct (JenkinsModel.jenkins364 _ _ _ _) as [[c b]| | |]; reflexivity.
  - unfold whole, compute, pure. cbn [fst snd app exec]. destruct (JenkinsModel.jenkins364 _ _ _ _) as [[c b]| | |]; reflexivity.
  - unfold whole, assign, look. cbn [fst snd app exec rbind vars set_vars mem set_m332 m332]. destruct (mm_write32 _ _); reflexivity.
  - unfold whole, assign, look. cbn [fst snd app exec rbind vars set_vars mem set_m364 m364]. destruct (mm_write128 _ _); reflexivity.
  - unfold whole, assign, look. cbn [fst snd app exec rbind vars set_vars mem set_seeds seeds]. rewrite sip_seeds.
    destruct (SipModel.pg_siphash _ _ _ _ _) as [[h x]|]; reflexivity.
  - reflexivity.
Qed.
