(** C101: copying and moving a file.  Code: pyTMD/utilities.py:457-483. *)
From Coq Require Import String List ZArith Bool Arith Lia.
From Verif Require Import PyBase CopyModel CopySpec.
Import ListNotations.
Local Open Scope string_scope.
Local Open Scope list_scope.

Section Copies.
Variables (fresh : fs -> nat) (status : Z) (creatable : string -> bool) (split : list Z -> list (list Z)).
Hypothesis split_all : forall c, List.concat (split c) = c.
Let run := copy fresh status creatable split.

(** a state in which the bytes and the status of place i are v, the name d leads to it, and all else is as in f *)
Definition with_file (f : fs) (d : string) (i : nat) (v : list Z * Z) (g : fs) : Prop :=
  (forall p, names g p = if String.eqb p d then Some (Node i) else names f p) /\ (forall j, data g j = if Nat.eqb j i then Some v else data f j).
Lemma opened_ok f d i t g : opened fresh status creatable f d = Ok (i, t, g) ->
  with_file f d i ([], t) g /\ (names f d = Some (Node i) \/ names f d = None /\ i = fresh f /\ creatable d = true).
Proof.
  unfold opened. destruct (names f d) as [[|j]|] eqn:E; [discriminate| |].
  - destruct (data f j) as [(b, u)|]; [|discriminate]. intros H. injection H as <- <- <-. split; [|now left]. split; [|reflexivity].
    intros p. cbn. destruct (String.eqb_spec p d) as [->|]; [exact E|reflexivity].
  - destruct (creatable d); [|discriminate]. intros H. injection H as <- <- <-. split; [|now right]. split; reflexivity.
Qed.
Lemma put_file f d i v w g : with_file f d i v g -> with_file f d i w (put g i w).
Proof. intros [N D]. split; [exact N|]. intros j. cbn. rewrite D. now destruct (Nat.eqb j i). Qed.
Lemma writes_file f d i t ps : forall g v done, with_file f d i v g -> forall h, In h (writes g i t done ps) -> exists b, with_file f d i (b, t) h.
Proof.
  induction ps as [|p ps IH]; intros g v done W h Hh; [destruct Hh|]. destruct Hh as [<-|Hh]; [exists (done ++ p); eapply put_file; eauto|]. eapply IH; eauto.
Qed.
Lemma reads_there f d i v g : with_file f d i v g -> reads g d = Some v.
Proof. intros [N D]. unfold reads. now rewrite N, String.eqb_refl, D, Nat.eqb_refl. Qed.
Lemma reads_other f d i v g p : with_file f d i v g -> p <> d -> names f p <> Some (Node i) -> reads g p = reads f p.
Proof.
  intros [N D] Np Ni. unfold reads. rewrite N. rewrite (proj2 (String.eqb_neq p d) Np). destruct (names f p) as [[|j]|]; auto. rewrite D.
  destruct (Nat.eqb_spec j i) as [->|]; [now elim Ni|reflexivity].
Qed.
Lemma reads_linked f d i v g p : with_file f d i v g -> names f p = Some (Node i) -> reads g p = Some v.
Proof.
  intros [N D] Ni. unfold reads. rewrite N. destruct (String.eqb p d); [now rewrite D, Nat.eqb_refl|]. now rewrite Ni, D, Nat.eqb_refl.
Qed.
(** a copy that starts: the place written to is not that of any other name but those linked to the destination *)
Lemma copy_starts f s d c t move : sound fresh f -> reads f s = Some (c, t) -> ~ linked f s d -> names f d <> Some Dir -> (names f d = None -> creatable d = true) ->
  exists i t' f1, with_file f d i ([], t') f1 /\ (names f d = Some (Node i) \/ names f d = None /\ data f i = None)
    /\ (forall p, names f p = Some (Node i) -> linked f p d) /\ s <> d /\ names f s <> Some (Node i)
    /\ run f s d move = (f1 :: writes f1 i t' [] (split c) ++ put f1 i (c, t) :: (if move then [name (put f1 i (c, t)) s None] else []), None).
Proof.
  intros [S F] Rs L Nd Cr. unfold reads in Rs. destruct (names f s) as [[|k]|] eqn:Es; try discriminate Rs.
  assert (Sd : s <> d) by (intros ->; apply L; exists k; auto).
  assert (O : exists i t' f1, opened fresh status creatable f d = Ok (i, t', f1)).
  { unfold opened. destruct (names f d) as [[|j]|] eqn:Ed; [now elim Nd| |].
    - pose proof (S d j Ed). destruct (data f j) as [(b, u)|]; [eauto|congruence].
    - rewrite (Cr eq_refl). eauto. }
  destruct O as (i & t' & f1 & O). destruct (opened_ok _ _ _ _ _ O) as [W P]. exists i, t', f1. split; [exact W|].
  assert (A : names f d = Some (Node i) \/ names f d = None /\ data f i = None) by (destruct P as [P|(P & -> & _)]; auto).
  assert (B : forall p, names f p = Some (Node i) -> linked f p d) by (intros p Hp; destruct A as [A|[_ A]]; [exists i; auto|elim (S p i Hp A)]).
  split; [exact A|]. split; [exact B|]. split; [exact Sd|]. split; [intros H; apply L, B; congruence|].
  unfold run, copy. assert (E : samefile f s d = false).
  { unfold samefile. rewrite Es. destruct (names f d) as [[|j]|] eqn:Ed; auto. apply Nat.eqb_neq. intros <-. apply L. exists k. auto. }
  now rewrite E, Es, Rs, O.
Qed.

(** *** C101: a copy ends without exception, the destination then has the bytes and the status of
    the source, all files but those of the destination's names are as before, and of a move the
    source is gone. *)
Theorem C101_copy : forall f s d c t move, sound fresh f -> reads f s = Some (c, t) -> ~ linked f s d -> names f d <> Some Dir -> (names f d = None -> creatable d = true) ->
  exists states g, run f s d move = (states ++ [g], None) /\ reads g d = Some (c, t)
    /\ names g s = (if move then None else names f s) /\ (move = false -> reads g s = Some (c, t))
    /\ (forall p, p <> s -> p <> d -> ~ linked f p d -> names g p = names f p /\ reads g p = reads f p).
Proof.
  intros f s d c t move So Rs L Nd Cr. destruct (copy_starts f s d c t move So Rs L Nd Cr) as (i & t' & f1 & W & A & B & Sd & Ns & ->).
  pose proof (put_file f d i _ (c, t) f1 W) as W2. set (f2 := put f1 i (c, t)) in *.
  assert (Os : names f2 s = names f s) by (rewrite (proj1 W2), (proj2 (String.eqb_neq s d) Sd); reflexivity).
  destruct move.
  - exists (f1 :: writes f1 i t' [] (split c) ++ [f2]), (name f2 s None). split; [cbn [app]; now rewrite <- app_assoc|].
    assert (K : forall p, p <> s -> reads (name f2 s None) p = reads f2 p) by (intros p Hp; unfold reads; cbn; now rewrite (proj2 (String.eqb_neq p s) Hp)).
    split; [rewrite K by congruence; eapply reads_there; eauto|]. split; [cbn; now rewrite String.eqb_refl|]. split; [discriminate|].
    intros p P1 P2 P3. split; [change (names (name f2 s None) p) with (if String.eqb p s then None else names f2 p); rewrite (proj2 (String.eqb_neq p s) P1), (proj1 W2), (proj2 (String.eqb_neq p d) P2); reflexivity|].
    rewrite K by exact P1. eapply reads_other; eauto.
  - exists (f1 :: writes f1 i t' [] (split c)), f2. split; [reflexivity|]. split; [eapply reads_there; eauto|]. split; [exact Os|].
    split; [intros _; rewrite <- Rs; eapply reads_other; eauto|]. intros p P1 P2 P3. split; [rewrite (proj1 W2), (proj2 (String.eqb_neq p d) P2); reflexivity|]. eapply reads_other; eauto.
Qed.

(** *** C101: at whatever call a copy or move is interrupted, the bytes and the status of the source
    are still to be read, from the source or from the destination, and no other file has changed. *)
Theorem C101_crash : forall f s d c t move g, sound fresh f -> reads f s = Some (c, t) -> In g (fst (run f s d move)) ->
  (reads g s = Some (c, t) \/ reads g d = Some (c, t)) /\ (forall p, p <> s -> p <> d -> ~ linked f p d -> reads g p = reads f p).
Proof.
  intros f s d c t move g So Rs H.
  assert (Pre : ~ linked f s d /\ names f d <> Some Dir /\ (names f d = None -> creatable d = true)).
  { revert H. unfold run, copy, samefile, opened. unfold reads in Rs. destruct (names f s) as [[|k]|] eqn:Es; try discriminate Rs. rewrite Rs.
    destruct (names f d) as [[|j]|] eqn:Ed.
    - intros [].
    - destruct (Nat.eqb_spec k j) as [->|N]; [intros []|]. intros _. split; [intros (i & E1 & E2); congruence|]. split; discriminate.
    - destruct (creatable d); [|intros []]. intros _. split; [intros (i & E1 & E2); congruence|]. split; [discriminate|reflexivity]. }
  destruct Pre as (L & Nd & Cr). destruct (copy_starts f s d c t move So Rs L Nd Cr) as (i & t' & f1 & W & A & B & Sd & Ns & E). rewrite E in H. cbn [fst] in H.
  pose proof (put_file f d i _ (c, t) f1 W) as W2. set (f2 := put f1 i (c, t)) in *.
  assert (G : (exists v, with_file f d i v g) \/ move = true /\ g = name f2 s None).
  { destruct H as [<-|H]; [eauto|]. apply in_app_or in H as [H|[<-|H]]; [left; destruct (writes_file f d i t' _ _ _ _ W _ H) as (b & Hb); eauto|eauto|].
    destruct move; [|destruct H]. destruct H as [<-|[]]. now right. }
  destruct G as [(v & G)|[-> ->]].
  - split; [left; rewrite <- Rs; eapply reads_other; eauto|]. intros p P1 P2 P3. eapply reads_other; eauto.
  - assert (K : forall p, p <> s -> reads (name f2 s None) p = reads f2 p) by (intros p Hp; unfold reads; cbn; now rewrite (proj2 (String.eqb_neq p s) Hp)).
    split; [right; rewrite K by congruence; eapply reads_there; eauto|]. intros p P1 P2 P3. rewrite K by exact P1. eapply reads_other; eauto.
Qed.

(** *** C101: a copy of a file to itself (or to another of its names), to a directory, to a name
    that cannot be created or of a file that does not exist is an exception, and nothing is changed. *)
Theorem C101_errors : forall f s d move, sound fresh f ->
  linked f s d \/ names f d = Some Dir \/ reads f s = None \/ names f d = None /\ creatable d = false ->
  fst (run f s d move) = [] /\ snd (run f s d move) <> None /\ (names f s = None -> snd (run f s d move) = Some FileNotFoundError).
Proof.
  intros f s d move [S F] H. unfold run, copy, samefile, opened.
  destruct H as [(i & E1 & E2)|[E|[E|[E1 E2]]]].
  - rewrite E1, E2, Nat.eqb_refl. repeat split; discriminate.
  - rewrite E. destruct (names f s) as [[|k]|]; [destruct (String.eqb s d); repeat split; discriminate| |repeat split; discriminate].
    destruct (data f k) as [(c, t)|]; repeat split; discriminate.
  - unfold reads in E. destruct (names f s) as [[|k]|] eqn:Es.
    + destruct (names f d) as [[|j]|]; [destruct (String.eqb s d)| |]; repeat split; discriminate.
    + elim (S s k Es E).
    + repeat split; discriminate.
  - rewrite E1. destruct (names f s) as [[|k]|]; [repeat split; discriminate| |repeat split; discriminate].
    destruct (data f k) as [(c, t)|]; [rewrite E2|]; repeat split; discriminate.
Qed.

(** *** C101: a copy that replaces a file empties it first: interrupted then, the destination has
    neither its old bytes nor those of the source. *)
Theorem C101_replaced_refuted : forall f s d c t c0 t0 move, sound fresh f -> reads f s = Some (c, t) -> ~ linked f s d -> reads f d = Some (c0, t0) ->
  c <> [] -> c0 <> [] -> exists g, In g (fst (run f s d move)) /\ reads g d = Some ([], t0) /\ reads g d <> reads f d /\ reads g d <> Some (c, t).
Proof.
  intros f s d c t c0 t0 move So Rs L Rd N N0.
  assert (Ed : exists j, names f d = Some (Node j) /\ data f j = Some (c0, t0)) by (unfold reads in Rd; destruct (names f d) as [[|j]|]; try discriminate Rd; eauto).
  destruct Ed as (j & Ed & Dj). unfold run, copy. unfold reads in Rs. destruct (names f s) as [[|k]|] eqn:Es; try discriminate Rs.
  assert (E : samefile f s d = false) by (unfold samefile; rewrite Es, Ed; apply Nat.eqb_neq; intros ->; apply L; exists j; auto).
  rewrite E, Rs. unfold opened. rewrite Ed, Dj. exists (put f j ([], t0)). split; [now left|].
  assert (R : reads (put f j ([], t0)) d = Some ([], t0)) by (unfold reads; cbn; now rewrite Ed, Nat.eqb_refl).
  rewrite R, Rd. split; [reflexivity|]. split; congruence.
Qed.

(** *** C101: a copy that replaces a file replaces it under all of its names. *)
Theorem C101_linked : forall f s d c t move p, sound fresh f -> reads f s = Some (c, t) -> ~ linked f s d -> linked f p d ->
  exists states g, run f s d move = (states ++ [g], None) /\ reads g p = Some (c, t).
Proof.
  intros f s d c t move p So Rs L (j & Ep & Ed).
  destruct (copy_starts f s d c t move So Rs L) as (i & t' & f1 & W & A & B & Sd & Ns & ->); [congruence|congruence|].
  assert (j = i) as -> by (destruct A as [A|[A _]]; congruence).
  pose proof (put_file f d i _ (c, t) f1 W) as W2. set (f2 := put f1 i (c, t)) in *.
  assert (R2 : reads f2 p = Some (c, t)) by (eapply reads_linked; eauto).
  destruct move.
  - exists (f1 :: writes f1 i t' [] (split c) ++ [f2]), (name f2 s None). split; [cbn [app]; now rewrite <- app_assoc|].
    rewrite <- R2. unfold reads. cbn. destruct (String.eqb_spec p s) as [->|]; [congruence|reflexivity].
  - exists (f1 :: writes f1 i t' [] (split c)), f2. split; [reflexivity|exact R2].
Qed.

(** *** C101: before the status is copied, all bytes of the source have been written. *)
Theorem C101_bytes : forall f s d c t move, sound fresh f -> reads f s = Some (c, t) -> ~ linked f s d -> names f d <> Some Dir -> (names f d = None -> creatable d = true) ->
  c <> [] -> exists before g after t', run f s d move = (before ++ g :: after, None) /\ length after = (if move then 2 else 1)%nat /\ reads g d = Some (c, t').
Proof.
  intros f s d c t move So Rs L Nd Cr Nc. destruct (copy_starts f s d c t move So Rs L Nd Cr) as (i & t' & f1 & W & A & B & Sd & Ns & ->).
  assert (G : forall ps g v done, with_file f d i v g -> ps <> [] -> exists before h, writes g i t' done ps = before ++ [h] /\ with_file f d i (done ++ List.concat ps, t') h).
  { clear - W. intros ps. induction ps as [|p ps IH]; intros g v done Wg Np; [now elim Np|]. cbn [writes List.concat]. destruct ps as [|q ps].
    - exists [], (put g i (done ++ p, t')). split; [reflexivity|]. cbn [List.concat]. rewrite app_nil_r. eapply put_file; eauto.
    - destruct (IH g v (done ++ p) Wg ltac:(discriminate)) as (b & h & E & Wh). exists (put g i (done ++ p, t') :: b), h. rewrite E. split; [reflexivity|].
      now rewrite app_assoc. }
  destruct (G (split c) f1 _ [] W) as (b & h & E & Wh); [intros E; apply Nc; rewrite <- (split_all c), E; reflexivity|]. rewrite E. cbn [app] in Wh. rewrite split_all in Wh.
  exists (f1 :: b), h, (put f1 i (c, t) :: (if move then [name (put f1 i (c, t)) s None] else [])), t'. split; [cbn [app]; now rewrite <- app_assoc|].
  split; [now destruct move|]. eapply reads_there; eauto.
Qed.
End Copies.
Print Assumptions C101_copy.
Print Assumptions C101_crash.
Print Assumptions C101_errors.
Print Assumptions C101_replaced_refuted.
Print Assumptions C101_linked.
Print Assumptions C101_bytes.

(** a file a of two bytes, a file b with a second name c *)
Local Open Scope nat_scope.
Definition disk : fs := FS (fun p => if String.eqb p "a" then Some (Node 0) else if String.eqb p "b" then Some (Node 1) else if String.eqb p "c" then Some (Node 1) else if String.eqb p "dir" then Some Dir else None)
  (fun i => match i with 0 => Some ([1; 2]%Z, 5%Z) | 1 => Some ([3]%Z, 6%Z) | _ => None end).
Definition free : fs -> nat := fun _ => 2.
Definition single (c : list Z) : list (list Z) := map (fun x => [x]) c.
Lemma single_all c : List.concat (single c) = c. Proof. unfold single. induction c as [|x c IH]; [reflexivity|]. cbn [map List.concat app]. now rewrite IH. Qed.
Lemma disk_sound : sound free disk.
Proof.
  split; [|reflexivity]. intros p i. cbn. destruct (String.eqb p "a"); [intros H; injection H as <-; discriminate|]. destruct (String.eqb p "b"); [intros H; injection H as <-; discriminate|].
  destruct (String.eqb p "c"); [intros H; injection H as <-; discriminate|]. destruct (String.eqb p "dir"); discriminate.
Qed.
Example C101_move : let (states, e) := copy free 9%Z (fun _ => true) single disk "a" "b" true in
  e = None /\ length states = 5%nat /\ map (fun g => reads g "b") states = [Some ([], 6); Some ([1], 6); Some ([1; 2], 6); Some ([1; 2], 5); Some ([1; 2], 5)]%Z
  /\ map (fun g => reads g "a") states = [Some ([1; 2], 5); Some ([1; 2], 5); Some ([1; 2], 5); Some ([1; 2], 5); None]%Z.
Proof. repeat split. Qed.
Example C101_new : let (states, e) := copy free 9%Z (fun _ => true) single disk "a" "new" false in
  e = None /\ map (fun g => reads g "new") states = [Some ([], 9); Some ([1], 9); Some ([1; 2], 9); Some ([1; 2], 5)]%Z.
Proof. repeat split. Qed.
Example C101_itself : copy free 9%Z (fun _ => true) single disk "b" "c" true = ([], Some OtherError) /\ linked disk "b" "c" /\ ~ linked disk "a" "b".
Proof. split; [reflexivity|]. split; [exists 1; auto|]. intros (i & E1 & E2). cbn in *. congruence. Qed.
