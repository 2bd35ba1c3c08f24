(** C74: lines, fields and numerals. *)
From Coq Require Import List Bool Arith ZArith String Ascii Lia.
From Verif Require Import PyBase CsvModel CsvSpec.
Import ListNotations.
Local Open Scope char_scope.

(** ** Lines and fields *)
Lemma split_clear c t : clear c t -> split_on c t = [t].
Proof. induction t as [|a t IH]; intros H; [reflexivity|]. cbn. destruct (Ascii.eqb_spec a c) as [->|]; [exfalso; apply H; now left|]. rewrite IH; [reflexivity|]. intros K. apply H. now right. Qed.
Lemma split_next c t r : clear c t -> split_on c (t ++ c :: r) = t :: split_on c r.
Proof.
  induction t as [|a t IH]; intros H; cbn. { now rewrite Ascii.eqb_refl. }
  destruct (Ascii.eqb_spec a c) as [->|]; [exfalso; apply H; now left|]. rewrite IH; [reflexivity|]. intros K. apply H. now right.
Qed.
Lemma split_delimited c line l : delimited c line l -> split_on c line = l.
Proof. induction 1 as [t H|t line l H _ IH]; [now apply split_clear|]. rewrite split_next by auto. now rewrite IH. Qed.
Lemma split_some c t : split_on c t <> [].
Proof. destruct t as [|a t]; [discriminate|]. cbn. destruct (Ascii.eqb a c); [discriminate|]. destruct (split_on c t); discriminate. Qed.
Lemma splitlines_next l t : clear newline l -> splitlines (l ++ newline :: t) = l :: splitlines t.
Proof.
  intros H. unfold splitlines. rewrite split_next by auto. cbn [rev]. pose proof (split_some newline t) as K. destruct (split_on newline t) as [|b r] using rev_ind; [congruence|].
  rewrite rev_app_distr. cbn [rev app]. destruct b as [|b0 b]; [|reflexivity]. rewrite rev_app_distr. cbn. reflexivity.
Qed.
Lemma splitlines_of t ls : lines_of t ls -> splitlines t = ls.
Proof. induction 1 as [|l t ls H _ IH]; [reflexivity|]. rewrite splitlines_next by auto. now rewrite IH. Qed.
Lemma lines_app t ls t' ls' : lines_of t ls -> lines_of t' ls' -> lines_of (t ++ t') (ls ++ ls').
Proof. induction 1 as [|l t ls H _ IH]; intros H'; [exact H'|]. rewrite <- app_assoc. cbn [app]. constructor; auto. Qed.
Lemma lines_one l : clear newline l -> lines_of (ended l) [l].
Proof. intros H. apply (A_line l [] []); [exact H|constructor]. Qed.
Lemma lines_blank : lines_of [newline] [[]].
Proof. apply (A_line [] [] []); [now intros []|constructor]. Qed.
Lemma lines_cons l t ls : clear newline l -> lines_of t ls -> lines_of (ended l ++ t) (l :: ls).
Proof. intros H H'. unfold ended. rewrite <- app_assoc. now constructor. Qed.
Lemma lines_cons0 t ls : lines_of t ls -> lines_of (newline :: t) ([] :: ls).
Proof. intros H. apply (A_line [] t ls); [now intros []|exact H]. Qed.
Lemma lines_flat {B} (f : B -> text) (g : B -> list text) bs : (forall b, In b bs -> lines_of (f b) (g b)) -> lines_of (flat_map f bs) (flat_map g bs).
Proof. induction bs as [|b bs IH]; intros H; [constructor|]. cbn [flat_map]. apply lines_app; [apply H; now left|]. apply IH. intros; apply H; now right. Qed.

(** ** Numerals *)
Lemma digit_spec a : digit a = true <-> is_digit a.
Proof. unfold digit, is_digit. rewrite andb_true_iff, !Nat.leb_le. lia. Qed.
Lemma digit_no a : ~ is_digit a -> digit a = false.
Proof. intros H. destruct (digit a) eqn:E; [|reflexivity]. apply digit_spec in E. contradiction. Qed.
Lemma sign_spec a : sign a = true <-> a = "-" \/ a = "+".
Proof. unfold sign. rewrite orb_true_iff, !Ascii.eqb_eq. tauto. Qed.
(** the text does not go on with a digit *)
Definition stops (t : text) : Prop := match t with [] => True | a :: _ => ~ is_digit a end.
Lemma digits_all d r : Forall is_digit d -> stops r -> digits (d ++ r) = (d, r).
Proof.
  induction 1 as [|a d Ha _ IH]; intros Hr; cbn [app].
  - destruct r as [|b r]; [reflexivity|]. cbn. now rewrite (digit_no b Hr).
  - cbn. rewrite (proj2 (digit_spec a) Ha). rewrite (IH Hr). reflexivity.
Qed.
Definition after (t : text) : Prop := match t with [] => True | a :: _ => filler a end.
Lemma digit_plain a : is_digit a -> ~ (a = "-" \/ a = "+") /\ a <> ".".
Proof. unfold is_digit. intros H. split; [intros [-> | ->]; cbn in H; lia|intros ->; cbn in H; lia]. Qed.
Lemma point_plain : ~ is_digit "." /\ ~ ("." = "-" \/ "." = "+").
Proof. split; [unfold is_digit; cbn; lia|intros [K|K]; discriminate]. Qed.
Lemma power_stops p r : power_text p -> after r -> stops (p ++ r) /\ match p ++ r with "." :: _ => False | _ => True end.
Proof.
  intros Hp Hr. destruct Hp as [|e s d He _ _ _]; cbn [app].
  - destruct r as [|a r]; [now split|]. destruct Hr as [H1 H2]. split; [exact H1|]. destruct (ascii_dec a ".") as [->|K]; [apply H2; cbn; tauto|]. destruct a as [[] [] [] [] [] [] [] []]; try exact I; congruence.
  - destruct He as [-> | [-> | ->]]; (split; [unfold stops, is_digit; cbn; lia|exact I]).
Qed.
Lemma mantissa_other t d r : digits t = (d, r) -> match r with "." :: _ => False | _ => True end -> mantissa t = match d with [] => None | _ => Some (d, r) end.
Proof. intros E H. unfold mantissa. rewrite E. cbn [fst snd]. destruct r as [|a r]; [reflexivity|]. destruct a as [[] [] [] [] [] [] [] []]; try reflexivity. contradiction. Qed.
Lemma mantissa_of m p r : decimal_text m -> power_text p -> after r -> mantissa (m ++ p ++ r) = Some (m, p ++ r).
Proof.
  intros Hm Hp Hr. destruct (power_stops p r Hp Hr) as [Hs Hd]. destruct Hm as [d Hn Fd|d Hn Fd|d f Fd Hn Ff].
  - rewrite (mantissa_other _ d (p ++ r) (digits_all d (p ++ r) Fd Hs) Hd). destruct d; [congruence|reflexivity].
  - unfold mantissa. rewrite <- app_assoc. cbn [app]. rewrite (digits_all d ("." :: p ++ r) Fd) by apply point_plain. cbn [fst snd]. rewrite (digits_all [] (p ++ r) (Forall_nil _) Hs : digits (p ++ r) = _). cbn [fst snd]. destruct d; [congruence|reflexivity].
  - unfold mantissa. rewrite <- app_assoc. cbn [app]. rewrite (digits_all d ("." :: f ++ p ++ r) Fd) by apply point_plain. cbn [fst snd]. rewrite (digits_all f (p ++ r) Ff Hs). cbn [fst snd]. destruct f; [congruence|reflexivity].
Qed.
Lemma sign_of s t : signed s -> match t with [] => True | a :: _ => ~ (a = "-" \/ a = "+") end -> optional_sign (s ++ t) = (s, t).
Proof.
  intros Hs Ht. destruct Hs as [|a Ha]; cbn [app].
  - destruct t as [|a t]; [reflexivity|]. cbn. destruct (sign a) eqn:E; [apply sign_spec in E; contradiction|reflexivity].
  - cbn. now rewrite (proj2 (sign_spec a) Ha).
Qed.
Lemma exponent_of p r : power_text p -> after r -> exponent (p ++ r) = (p, r).
Proof.
  intros Hp Hr. destruct Hp as [|e s d He Hs Hn Fd]; cbn [app].
  - destruct r as [|a r]; [reflexivity|]. destruct Hr as [_ H]. unfold exponent. destruct (Ascii.eqb_spec a "E") as [->|_]; [exfalso; apply H; cbn; tauto|]. destruct (Ascii.eqb_spec a "e") as [->|_]; [exfalso; apply H; cbn; tauto|]. destruct (Ascii.eqb_spec a "D") as [->|_]; [exfalso; apply H; cbn; tauto|]. reflexivity.
  - unfold exponent. assert (E : Ascii.eqb e "E" || Ascii.eqb e "e" || Ascii.eqb e "D" = true) by (destruct He as [-> | [-> | ->]]; reflexivity). rewrite E. rewrite <- app_assoc.
    rewrite (sign_of s (d ++ r) Hs) by (destruct d as [|a d]; [congruence|]; cbn; inversion Fd; now apply digit_plain). cbn [fst snd].
    assert (St : stops r) by (destruct r as [|a r]; [exact I|apply Hr]). rewrite (digits_all d r Fd St). cbn [fst snd]. destruct d; [congruence|reflexivity].
Qed.
Lemma decimal_starts m t : decimal_text m -> match m ++ t with [] => True | a :: _ => ~ (a = "-" \/ a = "+") end.
Proof.
  intros Hm. destruct Hm as [d Hn Fd|d Hn Fd|d f Fd Hn Ff].
  - destruct d as [|a d]; [congruence|]. cbn. inversion Fd. now apply digit_plain.
  - destruct d as [|a d]; [congruence|]. cbn. inversion Fd. now apply digit_plain.
  - destruct d as [|a d]; cbn; [apply point_plain|]. inversion Fd. now apply digit_plain.
Qed.
Lemma number_of f r : numeral f -> after r -> number_at (f ++ r) = Some (f, r).
Proof.
  intros [s m p Hs Hm Hp] Hr. unfold number_at. rewrite <- !app_assoc. rewrite (sign_of s _ Hs) by now apply decimal_starts. cbn [fst snd]. rewrite (mantissa_of m p r Hm Hp Hr). rewrite (exponent_of p r Hp Hr). reflexivity.
Qed.
Lemma number_not_other a t : ~ is_digit a -> ~ In a ["-"; "+"; "."] -> number_at (a :: t) = None.
Proof.
  intros H1 H2. unfold number_at, optional_sign. assert (E : sign a = false) by (destruct (sign a) eqn:E; [apply sign_spec in E as [-> | ->]; exfalso; apply H2; cbn; tauto|reflexivity]). rewrite E. cbn [fst snd].
  assert (K : match a :: t with "." :: _ => False | _ => True end) by (destruct (ascii_dec a ".") as [->|K]; [apply H2; cbn; tauto|]; destruct a as [[] [] [] [] [] [] [] []]; try exact I; congruence).
  assert (D : digits (a :: t) = ([], a :: t)) by (cbn [digits]; now rewrite (digit_no a H1)). now rewrite (mantissa_other _ _ _ D K).
Qed.
Lemma number_not a t : filler a -> number_at (a :: t) = None.
Proof. intros [H1 H2]. apply number_not_other; [exact H1|]. intros K; apply H2; cbn in *; tauto. Qed.
Lemma number_not_mark m a t : In m ["-"; "+"; "."] -> filler a -> number_at (m :: a :: t) = None.
Proof.
  intros Hm [H1 H2]. unfold number_at, optional_sign.
  assert (K : match a :: t with "." :: _ => False | _ => True end) by (destruct (ascii_dec a ".") as [->|K]; [apply H2; cbn; tauto|]; destruct a as [[] [] [] [] [] [] [] []]; try exact I; congruence).
  assert (D : digits (a :: t) = ([], a :: t)) by (cbn [digits]; now rewrite (digit_no a H1)).
  assert (N : mantissa (a :: t) = None) by now rewrite (mantissa_other _ _ _ D K).
  destruct Hm as [<- | [<- | [<- | []]]].
  - change (sign "-") with true; cbn [fst snd]. now rewrite N.
  - change (sign "+") with true; cbn [fst snd]. now rewrite N.
  - change (sign ".") with false; cbn [fst snd]. unfold mantissa. change (digits ("." :: a :: t)) with (@nil ascii, "." :: a :: t). cbv zeta. cbn [fst snd]. rewrite D. reflexivity.
Qed.
Lemma findall_fillers s t : gap s -> forall n, findall (List.length s + n) (s ++ t) = findall n t.
Proof.
  induction 1 as [|a s H1 H2 _ IH|m a s Hm Ha _ IH]; intros n; [reflexivity| |].
  - cbn [List.length Nat.add app findall]. rewrite (number_not_other a _ H1 H2). apply IH.
  - cbn [List.length Nat.add app findall]. rewrite (number_not_mark m a _ Hm Ha), (number_not a _ Ha). apply IH.
Qed.
Lemma numeral_some f : numeral f -> f <> [].
Proof. intros [s m p Hs Hm Hp] K. apply app_eq_nil in K as [_ K]. apply app_eq_nil in K as [K _]. destruct Hm as [d Hn _|d Hn _|d g _ _ _]; [congruence| |]; destruct d; discriminate. Qed.
Lemma findall_nil n : findall n [] = [].
Proof. destruct n; reflexivity. Qed.
(** ** The regular expression finds the numerals of a line *)
Lemma findall_spaced t l : spaced t l -> forall n, (List.length t < n)%nat -> findall n t = l.
Proof.
  induction 1 as [s Hs|s f Hs Hf|s f c line l Hs Hf Hc _ IH]; intros n Hn.
  - replace n with (List.length s + (n - List.length s))%nat by lia. rewrite <- (app_nil_r s) at 3. rewrite findall_fillers by auto. apply findall_nil.
  - rewrite app_length in Hn. replace n with (List.length s + S (n - List.length s - 1))%nat by lia. rewrite findall_fillers by auto. rewrite <- (app_nil_r f) at 1. cbn [findall]. rewrite (number_of f [] Hf I). now rewrite findall_nil.
  - rewrite !app_length in Hn. cbn [List.length] in Hn. pose proof (numeral_some f Hf) as Hne. assert (1 <= List.length f)%nat by (destruct f; [congruence|cbn; lia]).
    replace n with (List.length s + S (S (n - List.length s - 2)))%nat by lia. rewrite findall_fillers by auto. cbn [findall]. rewrite (number_of f (c :: line) Hf Hc). f_equal. rewrite (number_not c line Hc). apply IH. lia.
Qed.
Lemma fields_parted d line l : parted d line l -> fields_of d line = map with_E l.
Proof.
  assert (E : forall t, exponential t = with_E t) by (intros t; apply map_ext; intros a; destruct (Ascii.eqb_spec a "D"), (ascii_dec a "D"); congruence).
  intros [c ln fs H|ln fs H]; unfold fields_of.
  - rewrite (split_delimited c ln fs H). now apply map_ext.
  - rewrite (findall_spaced ln fs H) by lia. now apply map_ext.
Qed.
