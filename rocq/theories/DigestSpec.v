(** What a Go hash.Hash / hash.Hash64 object shows to its user: the sequence of
    method calls and the results they return.  Shared by all streaming digests. *)
From Verif Require Import Words.

Inductive dop : Type :=
| DWrite (p : list N)
| DSum (inp : list N)
| DSum64
| DReset.

(** [V] is the type of the word-valued result (Sum32, Sum64, Sum128). *)
Inductive dout {V : Type} : Type :=
| OWrote (n : nat)
| OBytes (l : list N)
| OWord (w : V)
| OUnit.
Arguments dout : clear implicits.

(** The intended meaning (documentation of Go's hash.Hash: "Sum appends the
    current hash to b ... does not change the underlying hash state", "Reset
    resets the Hash to its initial state"): the digest is just the bytes written
    since the last Reset; [h] is the hash as bytes, [h64] as a word. *)
Fixpoint spec_history {V} (h : list N -> list N) (h64 : list N -> V) (data : list N) (ops : list dop)
  : list (dout V) :=
  match ops with
  | [] => []
  | DWrite p :: r => OWrote (length p) :: spec_history h h64 (data ++ p) r
  | DSum inp :: r => OBytes (inp ++ h data) :: spec_history h h64 data r
  | DSum64 :: r => OWord (h64 data) :: spec_history h h64 data r
  | DReset :: r => OUnit :: spec_history h h64 [] r
  end.

(** Running an implementation, whose methods may change the object. *)
Fixpoint run_history {D V} (write : D -> list N -> D * nat) (sum : D -> list N -> D * list N)
    (sum64 : D -> D * V) (reset : D -> D) (d : D) (ops : list dop) : list (dout V) :=
  match ops with
  | [] => []
  | DWrite p :: r => let '(d', n) := write d p in
                     OWrote n :: run_history write sum sum64 reset d' r
  | DSum inp :: r => let '(d', o) := sum d inp in
                     OBytes o :: run_history write sum sum64 reset d' r
  | DSum64 :: r => let '(d', o) := sum64 d in
                   OWord o :: run_history write sum sum64 reset d' r
  | DReset :: r => OUnit :: run_history write sum sum64 reset (reset d) r
  end.

(** All bytes of a history must be bytes. *)
Definition dop_ok (o : dop) : Prop := match o with DWrite p => bytes_ok p | _ => True end.

(** A digest implements the intended meaning as soon as some invariant relates
    its state to the data written since the last Reset. *)
Lemma run_history_correct {D V} (write : D -> list N -> D * nat) sum (sum64 : D -> D * V) reset h h64 (I : D -> list N -> Prop) (allow64 : bool) :
  (forall d x p, I d x -> bytes_ok p -> I (fst (write d p)) (x ++ p) /\ snd (write d p) = length p) ->
  (forall d x i, I d x -> I (fst (sum d i)) x /\ snd (sum d i) = i ++ h x) ->
  (allow64 = true -> forall d x, I d x -> I (fst (sum64 d)) x /\ snd (sum64 d) = h64 x) ->
  (forall d x, I d x -> I (reset d) []) ->
  forall ops d x, I d x -> Forall dop_ok ops -> (allow64 = true \/ ~ In DSum64 ops) ->
  run_history write sum sum64 reset d ops = spec_history h h64 x ops.
Proof.
  intros Hw Hs H6 Hr ops. induction ops as [|o r IH]; intros d x Hi Hok Ha; cbn; auto.
  inversion Hok as [|? ? Ho Hok']; subst.
  assert (Ha' : allow64 = true \/ ~ In DSum64 r) by (destruct Ha; [now left|right; intro; apply H; now right]).
  destruct o as [p|i| |]; cbn in Ho.
  - destruct (Hw d x p Hi Ho) as [H1 H2]. destruct (write d p) as [d' n]; cbn in *. subst.
    f_equal. now apply IH.
  - destruct (Hs d x i Hi) as [H1 H2]. destruct (sum d i) as [d' n]; cbn in *. subst.
    f_equal. now apply IH.
  - destruct Ha as [Ha|Ha]; [|exfalso; apply Ha; now left].
    destruct (H6 Ha d x Hi) as [H1 H2]. destruct (sum64 d) as [d' n]; cbn in *. subst.
    f_equal. apply IH; auto.
  - f_equal. apply IH; auto. eapply Hr; eauto.
Qed.

Lemma spec_history_writes {V} h (h64 : list N -> V) chunks : forall data last,
  spec_history h h64 data (map DWrite chunks ++ [last]) =
  map (fun p => OWrote (length p)) chunks ++ spec_history h h64 (data ++ concat chunks) [last].
Proof.
  induction chunks as [|p r IH]; intros data last; cbn [map app concat].
  - now rewrite app_nil_r.
  - cbn [spec_history]. rewrite IH. now rewrite <- app_assoc.
Qed.
Lemma writes_ok chunks last : Forall bytes_ok chunks -> dop_ok last -> Forall dop_ok (map DWrite chunks ++ [last]).
Proof.
  intros H Hl. apply Forall_app. split; [|now repeat constructor].
  apply Forall_map. exact H.
Qed.
