(** C97: downloading a tide model brings every file asked for up to date, and
    doing it again changes nothing. *)
From Coq Require Import String Ascii Reals List ZArith Bool Lia Lra.
From Verif Require Import PyBase RBase StrBase UtilModel DownModel DownSpec DownLemmas DownRun.
Import ListNotations.
Open Scope string_scope.

(** * names *)
Theorem C97_names (name b e : text) :
  (basename name = b <-> last_component name b) /\
  (e <> [] -> (suffix name = e <-> extension name e)) /\
  (root name ++ suffix name)%list = name.
Proof.
  split; [symmetry; apply last_component_iff|]. split; [apply suffix_iff|].
  unfold root. destruct (suffix name) as [|c w] eqn:E.
  - cbn. rewrite Nat.sub_0_r, firstn_all, app_nil_r. reflexivity.
  - assert (H : extension name (c :: w)) by (apply suffix_iff; [discriminate|exact E]).
    destruct H as (stem & w' & (pre & Hn & _) & _).
    rewrite app_assoc in Hn. rewrite Hn at 1 2. rewrite app_length.
    replace (length (pre ++ stem) + length (c :: w) - length (c :: w))%nat
      with (length (pre ++ stem) + 0)%nat by lia.
    rewrite firstn_app_2. cbn [firstn]. rewrite app_nil_r. congruence.
Qed.

Lemma descend_plain p c : plain c -> descend p c = (p ++ [c])%list.
Proof.
  intros (A & B & C & _). unfold descend.
  destruct (teqb c []) eqn:E; [apply teqb_true in E; congruence|].
  destruct (teqb c (T ".")) eqn:E1; [apply teqb_true in E1; contradiction|].
  destruct (teqb c (T "..")) eqn:E2; [apply teqb_true in E2; contradiction|]. reflexivity.
Qed.

Lemma descend_all cs p : Forall plain cs -> fold_left descend cs p = (p ++ cs)%list.
Proof.
  revert p. induction cs as [|c cs IH]; intros p H; cbn; [now rewrite app_nil_r|].
  inversion H; subst. rewrite descend_plain by assumption. rewrite IH by assumption.
  now rewrite <- app_assoc.
Qed.

Lemma joined_first cs : cs <> [] -> Forall plain cs ->
  exists c t, joined cs = c :: t /\ slash c = false.
Proof.
  intros Hn Hf. destruct cs as [|w cs]; [congruence|].
  inversion Hf as [|? ? (Hw & _ & _ & Hs) _]; subst.
  destruct w as [|c w]; [congruence|].
  exists c. assert (S : slash c = false).
  { destruct (slash c) eqn:S; [|reflexivity]. apply slash_true in S; subst. exfalso. apply Hs. now left. }
  destruct cs as [|c' cs]; [exists w|exists (w ++ "/"%char :: joined (c' :: cs))%list]; split; auto.
Qed.

(** a relative name stays in the directory *)
Theorem C97_inside (dir : path) (cs : list text) :
  cs <> [] -> Forall plain cs -> place dir (joined cs) = (dir ++ cs)%list.
Proof.
  intros Hn Hf. destruct (joined_first cs Hn Hf) as (c & t & E & S).
  unfold place. rewrite E, S, <- E, pieces_joined by assumption. now apply descend_all.
Qed.

(** any file can be reached from a name in the tar file *)
Theorem C97_inside_refuted (dir : path) (cs : list text) :
  cs <> [] -> Forall plain cs ->
  place dir ("/"%char :: joined cs) = cs /\
  (forall d c, dir = (d ++ [c])%list ->
     place dir (chars "../" ++ joined cs)%list = (d ++ cs)%list).
Proof.
  intros Hn Hf. split.
  - unfold place. cbn [slash Ascii.eqb]. change (slash "/"%char) with true. cbn [pieces].
    change (slash "/"%char) with true. cbn iota. rewrite pieces_joined by assumption.
    cbn [fold_left]. change (descend [] []) with (@nil text). now rewrite descend_all.
  - intros d c ->. change (chars "../" ++ joined cs)%list with
      ("."%char :: "."%char :: "/"%char :: joined cs).
    unfold place. change (slash "."%char) with false. cbn iota.
    change ("."%char :: "."%char :: "/"%char :: joined cs) with
      (chars ".." ++ "/"%char :: joined cs)%list.
    rewrite pieces_app by (cbn; intuition discriminate).
    rewrite pieces_joined by assumption. cbn [fold_left].
    replace (descend (d ++ [c])%list (chars "..")) with d by (symmetry; apply removelast_last).
    now apply descend_all.
Qed.

(** * gsfc_got_tides *)
Definition got_exts := [chars ".d"; chars ".nc"].
Definition fes_exts := [chars ".asc"; chars ".nc"].

Lemma match_DS_iff t :
  match_DS (basename t) = true <->
  exists c rest, c <> "010"%char /\ last_component t (c :: "D" :: "S" :: rest)%char.
Proof.
  split.
  - intros H. destruct (basename t) as [|a [|b [|c r]]] eqn:E; try discriminate.
    cbn in H. apply andb_true_iff in H as (H & Hc). apply andb_true_iff in H as (Ha & Hb).
    apply Ascii.eqb_eq in Hb, Hc. subst. exists a, r. split.
    + intros ->. discriminate.
    + now apply last_component_iff.
  - intros (c & r & Hc & H). apply last_component_iff in H. rewrite H. cbn.
    unfold any. destruct (Ascii.eqb c "010"%char) eqn:E; [|reflexivity].
    apply Ascii.eqb_eq in E. congruence.
Qed.

Lemma match_under_iff t :
  match_under (basename t) = true <->
  exists c rest, c <> "010"%char /\ last_component t (c :: "_" :: rest)%char.
Proof.
  split.
  - intros H. destruct (basename t) as [|a [|b r]] eqn:E; try discriminate.
    cbn in H. apply andb_true_iff in H as (Ha & Hb).
    apply Ascii.eqb_eq in Hb. subst. exists a, r. split.
    + intros ->. discriminate.
    + now apply last_component_iff.
  - intros (c & r & Hc & H). apply last_component_iff in H. rewrite H. cbn.
    unfold any. destruct (Ascii.eqb c "010"%char) eqn:E; [|reflexivity].
    apply Ascii.eqb_eq in E. congruence.
Qed.

Lemma stored_as_two (e1 e2 : text) GZIP of name out : e1 <> [] -> e2 <> [] ->
  stored_as [e1; e2] GZIP of name out <->
  out = if (teqb (suffix of) e1 || teqb (suffix of) e2) && GZIP
        then (name ++ T ".gz")%list else name.
Proof.
  intros N1 N2. unfold stored_as.
  destruct (teqb (suffix of) e1) eqn:E1; [apply (suffix_b of e1 N1) in E1|apply (suffix_bf of e1 N1) in E1];
  (destruct (teqb (suffix of) e2) eqn:E2; [apply (suffix_b of e2 N2) in E2|apply (suffix_bf of e2 N2) in E2]);
  destruct GZIP; cbn [orb andb]; split; intros H;
  repeat match goal with
  | H : _ \/ _ |- _ => destruct H
  | H : _ /\ _ |- _ => destruct H
  end; subst; try discriminate; auto;
  try (exfalso; match goal with
       | H : forall e, _ -> ~ _ , X : extension of ?e |- _ => apply (H e); [cbn; tauto|exact X]
       end);
  try (exfalso; match goal with
       | H : exists e, _ |- _ => destruct H as (e & [<-|[<-|[]]] & X); tauto
       end);
  try (left; split; [reflexivity|split; [|reflexivity]]; eexists; split; [|eassumption]; cbn; tauto);
  try (right; split; [|reflexivity]; now left);
  try (right; split; [|reflexivity]; right; intros e [<-|[<-|[]]]; assumption).
Qed.

Section GOT.
Variable D : Type.
Variable gz : D -> D.

(** the file that a member goes to *)
Definition got_goes (FORMAT : string) (GZIP : bool) (dir : path) (m : member D)
  (p : path) : Prop :=
  m_file m = true /\ ~ passed_over FORMAT (m_name m) /\
  exists out, stored_as got_exts GZIP (m_name m) (m_name m) out /\ p = place dir out.

Lemma got_member_acts now now' FORMAT GZIP dir (m : member D) :
  m_file m = true ->
  acts D (got_member D gz now FORMAT GZIP dir m) (got_member D gz now' FORMAT GZIP dir m)
    (fun p d t => got_goes FORMAT GZIP dir m p /\ t = m_mtime m /\
       exists d0, m_data m = Whole d0 /\ d = if GZIP then gz d0 else d0)
    (fun p t => got_goes FORMAT GZIP dir m p /\ t = m_mtime m).
Proof.
  intros Hf. unfold got_goes.
  assert (Npo : forall P, passed_over FORMAT (m_name m) ->
    ~ ((m_file m = true /\ ~ passed_over FORMAT (m_name m) /\ P) /\ True)) by tauto.
  destruct (teqb (suffix (m_name m)) (T ".nc") && (FORMAT =? "ascii")) eqn:B1.
  { eapply acts_ext; [| |apply acts_skip].
    1, 2: intros s; unfold got_member; now rewrite B1.
    intros p t ((_ & H & _) & _). apply H. left. apply andb_true_iff in B1 as (X & Y).
    apply suffix_b in X; [|discriminate]. apply String.eqb_eq in Y. auto. }
  destruct (teqb (suffix (m_name m)) (T ".d") && (FORMAT =? "netcdf")) eqn:B2.
  { eapply acts_ext; [| |apply acts_skip].
    1, 2: intros s; unfold got_member; now rewrite B1, B2.
    intros p t ((_ & H & _) & _). apply H. right; left. apply andb_true_iff in B2 as (X & Y).
    apply suffix_b in X; [|discriminate]. apply String.eqb_eq in Y. auto. }
  destruct (match_DS (basename (m_name m))) eqn:B3.
  { eapply acts_ext; [| |apply acts_skip].
    1, 2: intros s; unfold got_member; now rewrite B1, B2, B3.
    intros p t ((_ & H & _) & _). apply H. right; right.
    apply match_DS_iff in B3 as (c & r & ? & ?). exists c, r. auto. }
  destruct (match_under (basename (m_name m))) eqn:B4.
  { eapply acts_ext; [| |apply acts_skip].
    1, 2: intros s; unfold got_member; now rewrite B1, B2, B3, B4.
    intros p t ((_ & H & _) & _). apply H. right; right.
    apply match_under_iff in B4 as (c & r & ? & ?). exists c, r. auto. }
  assert (NP : ~ passed_over FORMAT (m_name m)).
  { intros [(X & ->)|[(X & ->)|(c & r & Hc & [X|X])]].
    - apply suffix_b in X; [|discriminate].
      change (DownSpec.chars ".nc") with (T ".nc") in X. rewrite X in B1. discriminate.
    - apply suffix_b in X; [|discriminate].
      change (DownSpec.chars ".d") with (T ".d") in X. rewrite X in B2. discriminate.
    - assert (match_DS (basename (m_name m)) = true) by (apply match_DS_iff; eauto). congruence.
    - assert (match_under (basename (m_name m)) = true) by (apply match_under_iff; eauto). congruence. }
  eapply acts_ext.
  1, 2: intros s; unfold got_member; rewrite B1, B2, B3, B4; cbv zeta; reflexivity.
  eapply acts_weaken; [| |apply acts_fetch].
  - intros p d t (-> & -> & d0 & E & ->). split; [|split; [reflexivity|]].
    + split; [exact Hf|]. split; [exact NP|]. eexists. split; [|reflexivity].
      apply stored_as_two; [discriminate|discriminate|reflexivity].
    + exists d0. split; [exact E|]. reflexivity.
  - intros p t ((_ & _ & out & So & ->) & ->). split; [|reflexivity]. f_equal.
    apply stored_as_two in So; [exact So|discriminate|discriminate].
Qed.

Lemma got_acts now now' FORMAT GZIP dir ms :
  acts D (got_members D gz now FORMAT GZIP dir ms) (got_members D gz now' FORMAT GZIP dir ms)
    (fun p d t => exists m, In m ms /\ got_goes FORMAT GZIP dir m p /\ t = m_mtime m /\
       exists d0, m_data m = Whole d0 /\ d = if GZIP then gz d0 else d0)
    (fun p t => exists m, In m ms /\ got_goes FORMAT GZIP dir m p /\ t = m_mtime m).
Proof.
  unfold got_members.
  eapply acts_weaken; [intros p d t H; exact H| |apply acts_each with
    (J := fun m p t => got_goes FORMAT GZIP dir m p /\ t = m_mtime m)].
  - intros p t (m & Hm & G & ->). exists m. split; [|auto]. apply filter_In. split; [auto|].
    apply G.
  - intros m Hm. apply filter_In in Hm as (Hm & Hf).
    eapply acts_weaken; [| |apply got_member_acts, Hf].
    + intros p d t H. exists m. auto.
    + auto.
Qed.
End GOT.

Theorem C97_got (D : Type) (gz : D -> D) (now now' : R) (FORMAT : string) (GZIP : bool)
  (dir : path) (ms : list (member D)) (s s' : state D) :
  got_members D gz now FORMAT GZIP dir ms s = (s', None) ->
  (forall m out, In m ms -> m_file m = true -> ~ passed_over FORMAT (m_name m) ->
     stored_as [chars ".d"; chars ".nc"] GZIP (m_name m) (m_name m) out ->
     exists d t, fs s' (place dir out) = Some (d, t) /\ ~ stale t (m_mtime m)) /\
  (forall p, fs s' p = fs s p \/
     exists m out d, In m ms /\ m_file m = true /\ ~ passed_over FORMAT (m_name m) /\
       stored_as [chars ".d"; chars ".nc"] GZIP (m_name m) (m_name m) out /\
       p = place dir out /\ m_data m = Whole d /\
       fs s' p = Some (if GZIP then gz d else d, m_mtime m) /\
       match fs s p with None => True | Some (_, t0) => stale t0 (m_mtime m) end) /\
  got_members D gz now' FORMAT GZIP dir ms s' = (s', None).
Proof.
  intros E. destruct (got_acts D gz now now' FORMAT GZIP dir ms s s' E) as (P & Q & W).
  split; [|split].
  - intros m out Hm Hf Hp So. apply (Q (place dir out) (m_mtime m)).
    exists m. split; [exact Hm|]. split; [|reflexivity]. unfold got_goes. eauto 6.
  - intros p. destruct (P p) as [K|(d & t & (m & Hm & (Hf & Hp & out & So & ->) & -> & d0 & Hd & ->) & K & F)].
    + now left.
    + right. exists m, out, d0. repeat split; auto.
  - apply W, mono_refl.
Qed.

(** nothing fails when every member can be read *)
Theorem C97_got_ends (D : Type) (gz : D -> D) (now : R) (FORMAT : string) (GZIP : bool)
  (dir : path) (ms : list (member D)) (s : state D) :
  (forall m, In m ms -> exists d, m_data m = Whole d) ->
  exists s', got_members D gz now FORMAT GZIP dir ms s = (s', None).
Proof.
  intros H. assert (K : snd (got_members D gz now FORMAT GZIP dir ms s) = None).
  { apply each_none. intros m Hm s0. apply filter_In in Hm as (Hm & _).
    destruct (H m Hm) as (d & E). unfold got_member. cbv zeta. rewrite E.
    repeat match goal with |- context [if ?b then (s0, None) else _] => destruct b; [reflexivity|] end.
    apply fetch_whole. }
  destruct (got_members D gz now FORMAT GZIP dir ms s) as [s' o]. cbn in K. subst.
  now exists s'.
Qed.
