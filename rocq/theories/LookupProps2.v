(** C80: names with signs of repetition, which re.match takes as such. *)
From Coq Require Import String Ascii List Bool Arith Lia.
From Verif Require Import PyBase StrBase LookupModel LookupProps.
Import ListNotations.
Open Scope string_scope.
Open Scope list_scope.

(** characters that stand for themselves, and the dot *)
Definition ordinary (c : ascii) : Prop := ~ In c ["\"; "^"; "$"; "{"; "}"; "["; "]"; "|"; "("; ")"; "?"; "*"; "+"]%char.
(** names in which every sign of repetition follows such a character *)
Inductive expression : string -> Prop :=
| expression_nil : expression ""
| expression_char c n : ordinary c -> expression n -> expression (String c n)
| expression_sign c r n : ordinary c -> In r ["?"; "*"; "+"]%char -> expression n -> expression (String c (String r n)).
(** the character d of a file name is meant by c *)
Definition meant (c d : ascii) : Prop := lower_ascii c = lower_ascii d \/ (c = "."%char /\ d <> "010"%char).
(** f begins with an instance of the name: c? is c or nothing, c* any number of c, c+ at least one *)
Inductive instance : string -> string -> Prop :=
| instance_end f : instance "" f
| instance_char c n d f : ordinary c -> meant c d -> instance n f -> instance (String c n) (String d f)
| instance_none c r n f : In r ["?"; "*"]%char -> instance n f -> instance (String c (String r n)) f
| instance_one c r n d f : In r ["?"; "*"; "+"]%char -> meant c d -> instance n f -> instance (String c (String r n)) (String d f)
| instance_more c r n d f : In r ["*"; "+"]%char -> meant c d -> instance (String c (String "*" n)) f -> instance (String c (String r n)) (String d f).

Lemma ordinary_plain c : ordinary c -> repetition c = None /\ special c = false.
Proof. intros H. apply (plain_repeats c ""). split; [exact H|exact I]. Qed.
Definition sign (r : ascii) (t : times) : Prop := (r = "?"%char /\ t = Maybe) \/ (r = "*"%char /\ t = Any) \/ (r = "+"%char /\ t = Many).
Lemma sign_of r : In r ["?"; "*"; "+"]%char -> exists t, sign r t /\ repetition r = Some t /\ special r = false.
Proof. intros [<-|[<-|[<-|[]]]]; [exists Maybe|exists Any|exists Many]; unfold sign; repeat split; tauto. Qed.
Lemma expression_head n : expression n -> repeats n = false.
Proof. intros H. destruct H as [|c n O _|c r n O _ _]; cbn; auto; now rewrite (proj1 (ordinary_plain c O)). Qed.
Lemma expression_specials n : expression n -> specials n = false.
Proof.
  induction 1 as [|c n O H IH|c r n O R H IH]; [reflexivity| |].
  - cbn [specials]. rewrite (proj2 (ordinary_plain c O)), IH. unfold repeats at 1. now rewrite (proj1 (ordinary_plain c O)).
  - destruct (sign_of r R) as (t & _ & Er & Es). cbn [specials]. rewrite (proj2 (ordinary_plain c O)), Es, IH, (expression_head n H). unfold repeats at 1. now rewrite (proj1 (ordinary_plain c O)), andb_false_r.
Qed.
Lemma expression_parse n : expression n -> exists l, parse_name n = Ok l.
Proof.
  induction 1 as [|c n O H [l IH]|c r n O R H [l IH]]; [eexists; reflexivity| |].
  - cbn [parse_name]. rewrite (proj1 (ordinary_plain c O)). pose proof (expression_head n H) as E. destruct n as [|d n']; [eexists; reflexivity|]. cbn [repeats] in E. destruct (repetition d); [discriminate|]. rewrite IH. eexists; reflexivity.
  - destruct (sign_of r R) as (t & _ & Er & _). cbn [parse_name]. rewrite (proj1 (ordinary_plain c O)), Er, IH. eexists; reflexivity.
Qed.
Lemma ordinary_sign c r : ordinary c -> In r ["?"; "*"; "+"]%char -> c <> r.
Proof. intros O R ->. apply O. cbn in R |- *. tauto. Qed.

(** the loop of a repeated character *)
Definition stars (a : option ascii) (after : string -> bool) : string -> bool :=
  fix star (s : string) : bool := after s || match s with String c s => fits a c && star s | EmptyString => false end.
Lemma stars_nil a after : stars a after "" = (after "" || false).
Proof. reflexivity. Qed.
Lemma stars_cons a after c s : stars a after (String c s) = (after (String c s) || fits a c && stars a after s).
Proof. reflexivity. Qed.
Lemma stars_instance c n after : ordinary c -> expression n -> (forall f, after f = true <-> instance n f) -> forall f, stars (atom c) after f = true <-> instance (String c (String "*" n)) f.
Proof.
  intros O Ex Ha. induction f as [|d f IH].
  - rewrite stars_nil, orb_false_r, Ha. split; [intros H; apply instance_none; cbn; auto|]. intros H. inversion H; subst; auto.
  - rewrite stars_cons, orb_true_iff, andb_true_iff, Ha, atom_fits, IH. split.
    + intros [H|[H1 H2]]; [apply instance_none; cbn; auto|apply instance_more; cbn; auto].
    + intros H. inversion H as [|c' n' d' f' O' M' H'|c' r' n' f' R' H'|c' r' n' d' f' R' M' H'|c' r' n' d' f' R' M' H']; subst; auto.
      * exfalso. inversion H' as [|c2 n2 d2 f2 O2 M2 H2|c2 r2 n2 f2 R2 H2|c2 r2 n2 d2 f2 R2 M2 H2|c2 r2 n2 d2 f2 R2 M2 H2]; subst; try (apply O2; cbn; tauto);
          apply expression_head in Ex; cbn in Ex; cbn in R2; repeat (destruct R2 as [<-|R2]; [discriminate Ex|]); destruct R2.
      * right. split; [exact M'|]. apply instance_none; cbn; auto.
Qed.
Lemma no_sign_instance r n f : In r ["?"; "*"; "+"]%char -> expression n -> ~ instance (String r n) f.
Proof.
  intros R Ex H. inversion H as [|c2 n2 d2 f2 O2 M2 H2|c2 r2 n2 f2 R2 H2|c2 r2 n2 d2 f2 R2 M2 H2|c2 r2 n2 d2 f2 R2 M2 H2]; subst; try (apply O2; cbn in R |- *; tauto);
    apply expression_head in Ex; cbn in Ex; cbn in R2; repeat (destruct R2 as [<-|R2]; [discriminate Ex|]); destruct R2.
Qed.
Lemma parse_matches n l : expression n -> parse_name n = Ok l -> forall f, matches l f = true <-> instance n f.
Proof.
  intros H. revert l. induction H as [|c n O H IH|c r n O R H IH]; intros l.
  - cbn. intros E f. injection E as <-. cbn. split; [constructor|reflexivity].
  - cbn [parse_name]. rewrite (proj1 (ordinary_plain c O)). destruct (expression_parse n H) as (l' & El). intros E.
    assert (E' : l = (atom c, Once) :: l').
    { pose proof (expression_head n H) as Eh. destruct n as [|d n']; [cbn in El; congruence|]. cbn [repeats] in Eh. destruct (repetition d); [discriminate|]. rewrite El in E. cbn [bind] in E. congruence. }
    subst l. specialize (IH l' El). intros f. cbn [matches]. destruct f as [|d f].
    + split; [discriminate|]. intros K. inversion K as [|c2 n2 d2 f2 O2 M2 H2|c2 r2 n2 f2 R2 H2|c2 r2 n2 d2 f2 R2 M2 H2|c2 r2 n2 d2 f2 R2 M2 H2]; subst. apply expression_head in H. cbn in H, R2. repeat (destruct R2 as [<-|R2]; [discriminate H|]). destruct R2.
    + rewrite andb_true_iff, atom_fits, IH. split; [intros [A B]; now constructor|]. intros K.
      inversion K as [|c2 n2 d2 f2 O2 M2 H2|c2 r2 n2 f2 R2 H2|c2 r2 n2 d2 f2 R2 M2 H2|c2 r2 n2 d2 f2 R2 M2 H2]; subst; auto;
        exfalso; apply expression_head in H; cbn in H, R2; repeat (destruct R2 as [<-|R2]; [discriminate H|]); destruct R2.
  - destruct (sign_of r R) as (t & St & Er & _). cbn [parse_name]. rewrite (proj1 (ordinary_plain c O)), Er. destruct (expression_parse n H) as (l' & El). rewrite El. cbn [bind]. intros E. injection E as <-. specialize (IH l' El).
    pose proof (stars_instance c n (matches l') O H IH) as Ss.
    intros f. destruct St as [[-> ->]|[[-> ->]|[-> ->]]]; cbn [matches].
    + destruct f as [|d f].
      * cbn [orb]. rewrite IH. split; [intros K; apply instance_none; cbn; auto|]. intros K. inversion K; subst; auto.
      * rewrite orb_true_iff, andb_true_iff, atom_fits, !IH. split; [intros [[A B]|A]; [apply instance_one; cbn; auto|apply instance_none; cbn; auto]|]. intros K.
        inversion K as [|c2 n2 d2 f2 O2 M2 H2|c2 r2 n2 f2 R2 H2|c2 r2 n2 d2 f2 R2 M2 H2|c2 r2 n2 d2 f2 R2 M2 H2]; subst; auto.
        { exfalso. exact (no_sign_instance "?" n f R H H2). }
        { exfalso. cbn in R2. destruct R2 as [?|[?|[]]]; discriminate. }
    + exact (Ss f).
    + destruct f as [|d f].
      * split; [discriminate|]. intros K. inversion K as [|c2 n2 d2 f2 O2 M2 H2|c2 r2 n2 f2 R2 H2|c2 r2 n2 d2 f2 R2 M2 H2|c2 r2 n2 d2 f2 R2 M2 H2]; subst. cbn in R2. destruct R2 as [?|[?|[]]]; discriminate.
      * change (fits (atom c) d && stars (atom c) (matches l') f = true <-> instance (String c (String "+" n)) (String d f)). rewrite andb_true_iff, atom_fits, Ss. split; [intros [A B]; apply instance_more; cbn; auto|]. intros K.
        inversion K as [|c2 n2 d2 f2 O2 M2 H2|c2 r2 n2 f2 R2 H2|c2 r2 n2 d2 f2 R2 M2 H2|c2 r2 n2 d2 f2 R2 M2 H2]; subst; auto.
        { exfalso. exact (no_sign_instance "+" n f R H H2). }
        { exfalso. cbn in R2. destruct R2 as [?|[?|[]]]; discriminate. }
        { split; [exact M2|]. apply instance_none; cbn; auto. }
Qed.

(** ** A name with signs of repetition finds the last file whose name begins with an
    instance of it, and nothing else *)
Theorem C80_signs : forall other names n f, expression n -> ~ In n names ->
  case_insensitive other (Some names) n = Ok f <-> exists l r, names = l ++ f :: r /\ instance n f /\ forall g, In g r -> ~ instance n g.
Proof.
  intros other names n f Ex N. destruct (expression_parse n Ex) as (l & El). pose proof (parse_matches n l Ex El) as Hm.
  unfold case_insensitive. destruct (mem_str n names) eqn:M; [apply mem_str_In in M; contradiction|].
  rewrite (mapM_ok _ (fun f => (f, matches l f))) by (intros a _; unfold re_match; rewrite (expression_specials n Ex), El; reflexivity). cbn [bind]. rewrite hits_filter.
  clear N M. induction names as [|g names IH] using rev_ind.
  - cbn. split; [discriminate|]. intros (l1 & r1 & E & _). destruct l1; discriminate.
  - rewrite filter_app. cbn [filter]. destruct (matches l g) eqn:Eg.
    + rewrite rev_app_distr. cbn [rev app]. split.
      * intros E. injection E as <-. exists names, []. repeat split; [now apply Hm|intros ? []].
      * intros (l1 & r1 & E & I1 & I2). destruct r1 as [|h r1 _] using rev_ind.
        { apply app_inj_tail in E as [_ ->]. reflexivity. }
        { exfalso. rewrite app_comm_cons, app_assoc in E. apply app_inj_tail in E as [_ <-]. apply (I2 g); [apply in_or_app; right; now left|]. now apply Hm. }
    + rewrite app_nil_r, IH. assert (Ng : ~ instance n g) by (rewrite <- Hm, Eg; discriminate). split.
      * intros (l1 & r1 & -> & I1 & I2). exists l1, (r1 ++ [g]). split; [now rewrite <- app_assoc|]. split; auto. intros h Hh. apply in_app_or in Hh as [Hh|[<-|[]]]; auto.
      * intros (l1 & r1 & E & I1 & I2). destruct r1 as [|h r1 _] using rev_ind.
        { apply app_inj_tail in E as [_ <-]. contradiction. }
        { rewrite app_comm_cons, app_assoc in E. apply app_inj_tail in E as [-> <-]. exists l1, r1. repeat split; auto. intros h Hh. apply I2. apply in_or_app. now left. }
Qed.
Print Assumptions C80_signs.
Theorem C80_signs_missing : forall other names n, expression n -> ~ In n names -> (forall g, In g names -> ~ instance n g) ->
  case_insensitive other (Some names) n = Err FileNotFoundError.
Proof.
  intros other names n Ex N Hg. destruct (expression_parse n Ex) as (l & El). pose proof (parse_matches n l Ex El) as Hm.
  unfold case_insensitive. destruct (mem_str n names) eqn:M; [apply mem_str_In in M; contradiction|].
  rewrite (mapM_ok _ (fun f => (f, matches l f))) by (intros a _; unfold re_match; rewrite (expression_specials n Ex), El; reflexivity). cbn [bind]. rewrite hits_filter.
  assert (E : filter (matches l) names = []).
  { clear N M. induction names as [|g names IH]; [reflexivity|]. cbn [filter]. destruct (matches l g) eqn:Eg; [exfalso; apply (Hg g); [now left|now apply Hm]|]. apply IH. intros h Hh. apply Hg. now right. }
  rewrite E. reflexivity.
Qed.
Print Assumptions C80_signs_missing.
(** ** so that files whose names are as asked for are not found if they contain a plus sign
    and are written in another case *)
Theorem C80_plus_refuted : forall other c n names, ordinary c -> expression n -> lower_ascii c <> lower_ascii "+"%char -> c <> "."%char ->
  (forall g, In g names -> exists d h, g = String d (String "+" h) /\ lower_ascii d = lower_ascii c) ->
  (forall h, ~ instance n (String "+" h)) -> ~ In (String c (String "+" n)) names ->
  case_insensitive other (Some names) (String c (String "+" n)) = Err FileNotFoundError.
Proof.
  intros other c n names O Ex L Dot Hg Hn N. apply C80_signs_missing; auto; [apply expression_sign; cbn; auto|]. intros g Ig K. destruct (Hg g Ig) as (d & h & -> & Ed).
  assert (W : forall r f, In r ["*"; "+"]%char -> instance (String c (String r n)) (String "+" f) -> False).
  { intros r f R W. inversion W as [|c2 n2 d2 f2 O2 M2 H2|c2 r2 n2 f2 R2 H2|c2 r2 n2 d2 f2 R2 M2 H2|c2 r2 n2 d2 f2 R2 M2 H2]; subst; try (destruct M2 as [M2|[M2 _]]; congruence). exact (Hn f H2). }
  inversion K as [|c2 n2 d2 f2 O2 M2 H2|c2 r2 n2 f2 R2 H2|c2 r2 n2 d2 f2 R2 M2 H2|c2 r2 n2 d2 f2 R2 M2 H2]; subst.
  - apply (no_sign_instance "+" n (String "+" h)); cbn; auto.
  - cbn in R2. destruct R2 as [?|[?|[]]]; discriminate.
  - exact (Hn h H2).
  - exact (W "*"%char _ (or_introl eq_refl) H2).
Qed.
Print Assumptions C80_plus_refuted.

Example C80_signs_case : forall other,
  case_insensitive other (Some ["got.nc"; "Gooot.nc"; "gt.nc"]) "go+t.nc" = Ok "Gooot.nc" /\
  case_insensitive other (Some ["got.nc"; "Gooot.nc"; "gt.nc"]) "go?t.nc" = Ok "gt.nc" /\
  case_insensitive other (Some ["GO+T.nc"]) "go+t.nc" = Err FileNotFoundError.
Proof. intros other. repeat split; reflexivity. Qed.
