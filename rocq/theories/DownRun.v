(** Runs of the downloading programs: what one step does, and what a loop of
    such steps does. *)
From Coq Require Import String Ascii Reals List ZArith Bool Lia Lra.
From Verif Require Import PyBase RBase StrBase UtilModel DownModel DownSpec DownLemmas.
Import ListNotations.
Open Scope string_scope.

Arguments fs {D} s p.
Arguments wrote {D} s.
Arguments Whole {D} d.
Arguments Cut {D} d.
Arguments m_name {D} m.
Arguments m_file {D} m.
Arguments m_mtime {D} m.
Arguments m_data {D} m.

Section RUN.
Variable D : Type.
Variable gz : D -> D.
Notation state := (state D).
Notation step := (state -> state * option exn).

(** a local file can be replaced by one of time [t] *)
Definition free (s : state) (p : path) (t : R) : Prop :=
  match fs s p with None => True | Some (_, t0) => stale t0 t end.
(** a local file that needs nothing of time [t] *)
Definition current (s : state) (p : path) (t : R) : Prop :=
  exists d0 t0, fs s p = Some (d0, t0) /\ ~ stale t0 t.
Definition mono (s s' : state) : Prop :=
  forall p t, current s p t -> current s' p t.
Definition sound (I : path -> D -> R -> Prop) (s s' : state) : Prop :=
  forall p, fs s' p = fs s p \/
            exists d t, I p d t /\ fs s' p = Some (d, t) /\ free s p t.
Definition acts (f g : step) (I : path -> D -> R -> Prop) (J : path -> R -> Prop) : Prop :=
  forall s s', f s = (s', None) ->
    sound I s s' /\ (forall p t, J p t -> current s' p t) /\
    (forall s'', mono s' s'' -> g s'' = (s'', None)).

Lemma stale_trans a b c : stale a b -> stale b c -> stale a c.
Proof. rewrite !stale_iff. lia. Qed.

Lemma sound_mono I s s' : sound I s s' -> mono s s'.
Proof.
  intros H p t (d0 & t0 & E & N). destruct (H p) as [K|(d & t1 & _ & K & F)].
  - exists d0, t0. rewrite K. auto.
  - exists d, t1. split; [exact K|]. unfold free in F. rewrite E in F.
    rewrite stale_iff in *. lia.
Qed.

Lemma sound_refl I s : sound I s s.
Proof. intros p. now left. Qed.

Lemma sound_trans I s1 s2 s3 : sound I s1 s2 -> sound I s2 s3 -> sound I s1 s3.
Proof.
  intros A B p. destruct (B p) as [Kb|(d & t & Hi & Kb & F)].
  - destruct (A p) as [Ka|(d & t & Hi & Ka & F)].
    + left. congruence.
    + right. exists d, t. repeat split; auto. congruence.
  - right. exists d, t. repeat split; auto.
    destruct (A p) as [Ka|(d1 & t1 & _ & Ka & F1)].
    + unfold free in *. now rewrite Ka in F.
    + unfold free in *. rewrite Ka in F. destruct (fs s1 p) as [[x y]|]; auto.
      eapply stale_trans; eauto.
Qed.

Lemma sound_weaken (I I' : path -> D -> R -> Prop) s s' :
  (forall p d t, I p d t -> I' p d t) -> sound I s s' -> sound I' s s'.
Proof.
  intros H A p. destruct (A p) as [K|(d & t & Hi & K)]; [now left|].
  right. exists d, t. split; [auto|exact K].
Qed.

Lemma mono_refl s : mono s s.
Proof. now intros p t. Qed.
Lemma mono_trans a b c : mono a b -> mono b c -> mono a c.
Proof. intros A B p t H. auto. Qed.

Lemma acts_weaken f g (I I' : path -> D -> R -> Prop) (J J' : path -> R -> Prop) :
  (forall p d t, I p d t -> I' p d t) -> (forall p t, J' p t -> J p t) ->
  acts f g I J -> acts f g I' J'.
Proof.
  intros HI HJ A s s' E. destruct (A s s' E) as (P & Q & W).
  split; [eapply sound_weaken; eauto|]. split; auto.
Qed.

Lemma acts_skip I (J : path -> R -> Prop) :
  (forall p t, ~ J p t) -> acts (fun s => (s, None)) (fun s => (s, None)) I J.
Proof.
  intros HJ s s' E. injection E as <-. split; [apply sound_refl|]. split; [|reflexivity].
  intros p t H. exfalso. eapply HJ; eauto.
Qed.

Lemma fetch_test (s : state) p t :
  match fs s p with Some (_, t0) => newer t t0 | None => false end = true <->
  current s p t.
Proof.
  unfold current. destruct (fs s p) as [[d0 t0]|].
  - rewrite newer_true. split; [eauto|]. intros (? & ? & E & H). congruence.
  - split; [discriminate|]. intros (? & ? & E & _). discriminate.
Qed.

Lemma fetch_test_false (s : state) p t :
  match fs s p with Some (_, t0) => newer t t0 | None => false end = false <->
  free s p t.
Proof.
  unfold free. destruct (fs s p) as [[d0 t0]|]; [apply newer_false|tauto].
Qed.

Lemma not_stale_refl t : ~ stale t t.
Proof. rewrite stale_iff. lia. Qed.

Lemma store_same p v (s : state) : fs (store D p v s) p = Some v.
Proof. cbn. destruct (path_dec p p); congruence. Qed.
Lemma store_other p q v (s : state) : q <> p -> fs (store D p v s) q = fs s q.
Proof. intros H. cbn. destruct (path_dec q p); congruence. Qed.

Lemma acts_fetch now now' GZIP p c t :
  acts (fetch D gz now GZIP p c t) (fetch D gz now' GZIP p c t)
    (fun q d u => q = p /\ u = t /\ exists d0, c = Whole d0 /\ d = opener D gz GZIP d0)
    (fun q u => q = p /\ u = t).
Proof.
  intros s s' E.
  assert (Q : forall s'', current s'' p t -> fetch D gz now' GZIP p c t s'' = (s'', None)).
  { intros s'' H. unfold fetch. apply fetch_test in H. now rewrite H. }
  unfold fetch in E.
  destruct (match fs s p with Some (_, t0) => newer t t0 | None => false end) eqn:B.
  - injection E as <-. apply fetch_test in B.
    split; [apply sound_refl|]. split; [intros ? ? (-> & ->); exact B|].
    intros s'' M. auto.
  - apply fetch_test_false in B. destruct c as [d|d]; [|discriminate].
    injection E as <-.
    assert (C : current (store D p (opener D gz GZIP d, t) s) p t).
    { exists (opener D gz GZIP d), t. split; [apply store_same|apply not_stale_refl]. }
    split; [|split].
    + intros q. destruct (path_dec q p) as [->|N].
      * right. exists (opener D gz GZIP d), t. rewrite store_same. eauto 8.
      * left. now apply store_other.
    + intros ? ? (-> & ->). exact C.
    + intros s'' M. auto.
Qed.

Lemma acts_each {A} (f g : A -> step) I (J : A -> path -> R -> Prop) l :
  (forall a, In a l -> acts (f a) (g a) I (J a)) ->
  acts (each D f l) (each D g l) I (fun p t => exists a, In a l /\ J a p t).
Proof.
  induction l as [|a l IH]; intros H.
  - apply acts_skip. intros p t (a & [] & _).
  - intros s s' E. cbn [each] in E.
    destruct (f a s) as [s1 [e|]] eqn:Ea; [discriminate|].
    destruct (H a (or_introl eq_refl) s s1 Ea) as (P1 & Q1 & W1).
    assert (H' : forall x, In x l -> acts (f x) (g x) I (J x)) by (intros x Hx; apply H; now right).
    destruct (IH H' s1 s' E) as (P2 & Q2 & W2).
    pose proof (sound_mono _ _ _ P2) as M.
    split; [eapply sound_trans; eauto|]. split.
    + intros p t (x & [<-|Hx] & Hj); [apply M, Q1, Hj|apply Q2; eauto].
    + intros s'' M''. cbn [each]. rewrite W1 by (eapply mono_trans; eauto). auto.
Qed.

(** a condition fixed for the run *)
Lemma acts_ext (f g f' g' : step) I J :
  (forall s, f' s = f s) -> (forall s, g' s = g s) -> acts f g I J -> acts f' g' I J.
Proof.
  intros Hf Hg A s s' E. rewrite Hf in E. destruct (A s s' E) as (P & Q & W).
  split; [exact P|]. split; [exact Q|]. intros s'' M. rewrite Hg. auto.
Qed.

Lemma acts_fail f g I J : (forall s, exists e, snd (f s) = Some e) -> acts f g I J.
Proof. intros H s s' E. destruct (H s) as (e & He). rewrite E in He. discriminate. Qed.

(** without cuts nothing fails *)
Lemma fetch_whole now GZIP p d t (s : state) :
  snd (fetch D gz now GZIP p (Whole d) t s) = None.
Proof. unfold fetch. destruct (match fs s p with Some _ => _ | None => _ end); reflexivity. Qed.

Lemma each_none {A} (f : A -> step) l :
  (forall a, In a l -> forall s, snd (f a s) = None) -> forall s, snd (each D f l s) = None.
Proof.
  induction l as [|a l IH]; intros H s; [reflexivity|].
  cbn [each]. pose proof (H a (or_introl eq_refl) s) as Ha.
  destruct (f a s) as [s1 o]. cbn in Ha. subst o. apply IH. intros x Hx. apply H. now right.
Qed.
End RUN.
