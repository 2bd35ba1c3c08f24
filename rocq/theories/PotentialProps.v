(** C77: lines of the tables of the tide-generating potential, and their Doodson
    numbers. *)
From Coq Require Import String Ascii List Reals ZArith Bool Lia Lra.
From Verif Require Import PyBase NutationModel NutationSpec NutationProps DoodsonModel PotentialData PotentialModel PotentialSpec.
Import ListNotations.
Open Scope R_scope.
Open Scope list_scope.

(** what is kept of a term: amplitudes rounded to single precision *)
Definition kept (w : spectral) (v : wave) : Prop :=
  cartwright v = multiples w /\ doodson v = code w
  /\ nearly (amp1 w) (single_value (hs1 v)) /\ nearly (amp2 w) (single_value (hs2 v))
  /\ nearly (amp3 w) (single_value (hs3 v)) /\ nearly (scaled w) (single_value (hs0 v)).

Lemma single_of_real s x : real s x -> exists v, single_of s = Ok v /\ nearly x (single_value v).
Proof.
  intros H. apply decimal_iff in H as (p & E & V). unfold single_of. rewrite E. cbn [opt_res bind].
  eexists; split; [reflexivity|]. rewrite <- V. apply value_single.
Qed.
Lemma single_of_ok s v : single_of s = Ok v -> exists x, real s x /\ nearly x (single_value v).
Proof.
  unfold single_of. destruct (decimal s) as [p|] eqn:E; [|discriminate]. cbn [opt_res bind]. intros H; apply Ok_inj in H as <-.
  exists (value p). split; [apply decimal_iff; eauto|apply value_single].
Qed.
Lemma single_of_err s e : single_of s = Err e -> e = ValueError.
Proof. unfold single_of. destruct (decimal s); cbn [opt_res bind]; congruence. Qed.

(** A line that tells a term is read as that term, whatever follows. *)
Theorem C77_line : forall line w, tells line w -> exists v, wave_of_line line = Ok v /\ kept w v.
Proof.
  intros line w (ks & a & b & c & n & d & more & L & Hk & Hl & Ha & Hb & Hc & Hd & Hn).
  apply words_iff in L. unfold wave_of_line. rewrite L.
  do 6 (destruct ks as [|? ks]; [discriminate|]). destruct ks; [|discriminate]. cbn [app firstn].
  apply whole_list in Hk. rewrite Hk. cbn [bind].
  destruct (single_of_real _ _ Ha) as (va & -> & Na). destruct (single_of_real _ _ Hb) as (vb & -> & Nb).
  destruct (single_of_real _ _ Hc) as (vc & -> & Nc). destruct (single_of_real _ _ Hd) as (vd & -> & Nd). cbn [bind].
  eexists; split; [reflexivity|]. unfold kept; cbn [cartwright hs1 hs2 hs3 doodson hs0]. auto 8.
Qed.
Print Assumptions C77_line.

Lemma firstn_more {A} n (l : list A) : l = firstn n l ++ skipn n l.
Proof. symmetry. apply firstn_skipn. Qed.
(** Nothing else is read: a line that is accepted tells a term, and any other line
    is a ValueError. *)
Theorem C77_line_only : forall line,
  (forall v, wave_of_line line = Ok v -> exists w, tells line w /\ kept w v)
  /\ ((~ exists w, tells line w) -> wave_of_line line = Err ValueError).
Proof.
  intros line.
  assert (A : forall v, wave_of_line line = Ok v -> exists w, tells line w /\ kept w v).
  { intros v. unfold wave_of_line. pose proof (firstn_more 11 (words line)) as L.
    destruct (firstn 11 (words line)) as [|t [|s [|h [|p [|n [|pp [|a1 [|a2 [|a3 [|nm [|a0 [|]]]]]]]]]]]]; try discriminate.
    destruct (mapM _ _) as [ks|] eqn:Ek; [|discriminate]. cbn [bind].
    destruct (single_of a1) as [v1|] eqn:E1; [|discriminate]. destruct (single_of a2) as [v2|] eqn:E2; [|discriminate].
    destruct (single_of a3) as [v3|] eqn:E3; [|discriminate]. destruct (single_of a0) as [v0|] eqn:E0; [|discriminate]. cbn [bind].
    intros E; apply Ok_inj in E as <-.
    destruct (single_of_ok _ _ E1) as (x1 & R1 & N1). destruct (single_of_ok _ _ E2) as (x2 & R2 & N2).
    destruct (single_of_ok _ _ E3) as (x3 & R3 & N3). destruct (single_of_ok _ _ E0) as (x0 & R0 & N0).
    apply whole_list in Ek. exists (Spectral ks x1 x2 x3 (String.substring 0 7 nm) x0). split.
    - exists [t; s; h; p; n; pp], a1, a2, a3, nm, a0, (skipn 11 (words line)). cbn [multiples amp1 amp2 amp3 code scaled].
      split; [apply words_iff; exact L|]. split; [exact Ek|]. split; [reflexivity|]. auto.
    - unfold kept; cbn [cartwright hs1 hs2 hs3 doodson hs0 multiples amp1 amp2 amp3 code scaled]. auto 8. }
  split; [exact A|]. intros N. destruct (wave_of_line line) as [v|e] eqn:E.
  - destruct (A v eq_refl) as (w & H & _). exfalso; apply N; eauto.
  - f_equal. revert E. unfold wave_of_line.
    destruct (firstn 11 (words line)) as [|t [|s [|h [|p [|n [|pp [|a1 [|a2 [|a3 [|nm [|a0 [|]]]]]]]]]]]]; try congruence.
    destruct (mapM _ _) as [ks|e'] eqn:Ek; cbn [bind]; [|intros H; pose proof (whole_list_err _ e' Ek); congruence].
    destruct (single_of a1) eqn:E1; cbn [bind]; [|intros H; pose proof (single_of_err _ _ E1); congruence].
    destruct (single_of a2) eqn:E2; cbn [bind]; [|intros H; pose proof (single_of_err _ _ E2); congruence].
    destruct (single_of a3) eqn:E3; cbn [bind]; [|intros H; pose proof (single_of_err _ _ E3); congruence].
    destruct (single_of a0) eqn:E0; cbn [bind]; [discriminate|intros H; pose proof (single_of_err _ _ E0); congruence].
Qed.
Print Assumptions C77_line_only.

(** A file: one term for each line, in order; one line that is not of this form and
    nothing is read. *)
Theorem C77_table : forall lines,
  (forall ws, Forall2 tells lines ws -> exists vs, parse_potential lines = Ok vs /\ Forall2 kept ws vs)
  /\ ((exists line, In line lines /\ ~ exists w, tells line w) -> parse_potential lines = Err ValueError).
Proof.
  unfold parse_potential. induction lines as [|line lines [IH1 IH2]]; split.
  - intros ws H; inversion H; subst. exists []; split; [reflexivity|constructor].
  - intros (line & [] & _).
  - intros ws H; inversion H as [|? w ? ws' H1 H2]; subst. cbn [mapM].
    destruct (C77_line _ _ H1) as (v & -> & K). destruct (IH1 _ H2) as (vs & -> & F). cbn [bind].
    exists (v :: vs); split; [reflexivity|constructor; assumption].
  - intros (l & I & N). cbn [mapM]. destruct (C77_line_only line) as [A B].
    destruct (wave_of_line line) as [v|e] eqn:E; cbn [bind].
    + destruct I as [<- | I]; [destruct (A v eq_refl) as (w & H & _); exfalso; eauto|].
      rewrite IH2 by eauto. reflexivity.
    + assert (e = ValueError); [|congruence].
      destruct (wave_of_line line) as [|e'] eqn:E'; [discriminate|]. injection E as ->.
      clear - E'. revert E'. unfold wave_of_line.
      destruct (firstn 11 (words line)) as [|t [|s [|h [|p [|n [|pp [|a1 [|a2 [|a3 [|nm [|a0 [|]]]]]]]]]]]]; try congruence.
      destruct (mapM _ _) as [ks|e'] eqn:Ek; cbn [bind]; [|intros H; pose proof (whole_list_err _ e' Ek); congruence].
      destruct (single_of a1) eqn:E1; cbn [bind]; [|intros H; pose proof (single_of_err _ _ E1); congruence].
      destruct (single_of a2) eqn:E2; cbn [bind]; [|intros H; pose proof (single_of_err _ _ E2); congruence].
      destruct (single_of a3) eqn:E3; cbn [bind]; [|intros H; pose proof (single_of_err _ _ E3); congruence].
      destruct (single_of a0) eqn:E0; cbn [bind]; [discriminate|intros H; pose proof (single_of_err _ _ E0); congruence].
Qed.
Print Assumptions C77_table.

(** ** Doodson numbers *)
Lemma numeral_int v a : numeral v a -> is_word (character a) = true /\ char_int (character a) = Ok v.
Proof.
  intros H. inversion H as [d Hd| |]; subst; [|split; reflexivity|split; reflexivity].
  do 10 (destruct d as [|d]; [split; reflexivity|]). lia.
Qed.
(** Doodson's notation is decoded to the multiples it stands for, all of them. *)
Theorem C77_decoded : forall ks name, in_doodson ks name -> from_doodson (Str (characters name)) = Ok ks.
Proof.
  intros ks name (t & s & h & p & n & pp & a & b & c & d & e & f & -> & Ha & Hb & Hc & Hd & He & Hf & ->).
  destruct (numeral_int _ _ Ha) as [Wa Ia]. destruct (numeral_int _ _ Hb) as [Wb Ib]. destruct (numeral_int _ _ Hc) as [Wc Ic].
  destruct (numeral_int _ _ Hd) as [Wd Id]. destruct (numeral_int _ _ He) as [We Ie]. destruct (numeral_int _ _ Hf) as [Wf If].
  unfold from_doodson, characters. cbn [list_ascii_of_string map].
  unfold zfill7. cbn [List.length Nat.sub repeat app filter].
  rewrite Wa, Wb, Wc, Wd, We, Wf. change (is_word (character ".")) with false. cbv iota. cbn [mapM].
  rewrite Ia, Ib, Ic, Id, Ie, If. cbn [bind map]. do 2 f_equal. repeat f_equal; lia.
Qed.
Print Assumptions C77_decoded.

(** The tables of the package are read, in every row the Doodson number is that of
    the multiples, it is what the multiples are encoded to, and no two rows of any of
    the tables have the same. *)
Definition symbol (v : Z) : option ascii :=
  (if (v =? 10) then Some "X"%char else if (v =? 11) then Some "E"%char
   else if (0 <=? v) && (v <? 10) then Some (ascii_of_nat (48 + Z.to_nat v)) else None)%Z.
Lemma symbol_numeral v a : symbol v = Some a -> numeral v a.
Proof.
  unfold symbol. destruct (Z.eqb_spec v 10) as [->|]; [intros [= <-]; constructor|].
  destruct (Z.eqb_spec v 11) as [->|]; [intros [= <-]; constructor|].
  destruct ((0 <=? v) && (v <? 10))%Z eqn:E; [|discriminate]. intros [= <-].
  apply andb_true_iff in E as [E1 E2]. apply Z.leb_le in E1. apply Z.ltb_lt in E2.
  rewrite <- (Z2Nat.id v) at 1 by exact E1. constructor. lia.
Qed.
Definition numbered (v : wave) : bool :=
  match cartwright v with
  | [t; s; h; p; n; pp] =>
      match symbol t, symbol (s + 5), symbol (h + 5), symbol (p + 5), symbol (n + 5), symbol (pp + 5) with
      | Some a, Some b, Some c, Some d, Some e, Some f =>
          String.eqb (doodson v) (String a (String b (String c (String "." (String d (String e (String f EmptyString)))))))
      | _, _, _, _, _, _ => false
      end
  | _ => false
  end%Z.
Lemma numbered_in v : numbered v = true -> in_doodson (cartwright v) (doodson v).
Proof.
  unfold numbered. destruct (cartwright v) as [|t [|s [|h [|p [|n [|pp [|]]]]]]]; try discriminate.
  destruct (symbol t) as [a|] eqn:Ea; [|discriminate]. destruct (symbol (s + 5)) as [b|] eqn:Eb; [|discriminate].
  destruct (symbol (h + 5)) as [c|] eqn:Ec; [|discriminate]. destruct (symbol (p + 5)) as [d|] eqn:Ed; [|discriminate].
  destruct (symbol (n + 5)) as [e|] eqn:Ee; [|discriminate]. destruct (symbol (pp + 5)) as [f|] eqn:Ef; [|discriminate].
  intros H; apply String.eqb_eq in H.
  exists t, s, h, p, n, pp, a, b, c, d, e, f. repeat (split; [first [reflexivity | apply symbol_numeral; assumption]|]). exact H.
Qed.
Definition dchar_eqb (x y : dchar) : bool :=
  match x, y with
  | Dig a, Dig b => Z.eqb a b | Dot, Dot | CX, CX | CE, CE => true | Other a, Other b => Bool.eqb a b | _, _ => false end.
Lemma dchar_eqb_eq x y : dchar_eqb x y = true -> x = y.
Proof. destruct x, y; cbn; try discriminate; try reflexivity; [intros H; apply Z.eqb_eq in H|intros H; apply Bool.eqb_prop in H]; congruence. Qed.
Fixpoint dchars_eqb (x y : list dchar) : bool :=
  match x, y with [], [] => true | a :: x, b :: y => dchar_eqb a b && dchars_eqb x y | _, _ => false end.
Lemma dchars_eqb_eq x : forall y, dchars_eqb x y = true -> x = y.
Proof.
  induction x as [|a x IH]; intros [|b y]; cbn; try discriminate; [reflexivity|]. intros H; apply andb_true_iff in H as [H1 H2].
  apply dchar_eqb_eq in H1. apply IH in H2. congruence.
Qed.
Definition encoded (v : wave) : bool :=
  match to_doodson (cartwright v) true with
  | Ok (Some n) => dchars_eqb (padded n) (characters (doodson v))
  | _ => false end.
Fixpoint distinct (l : list string) : bool :=
  match l with [] => true | a :: l => negb (existsb (String.eqb a) l) && distinct l end.
Lemma distinct_nodup l : distinct l = true -> NoDup l.
Proof.
  induction l as [|a l IH]; cbn [distinct]; [constructor|]. intros H; apply andb_true_iff in H as [H1 H2].
  constructor; [|auto]. intros I. apply negb_true_iff in H1. assert (existsb (String.eqb a) l = true); [|congruence].
  apply existsb_exists. exists a. split; [exact I|apply String.eqb_refl].
Qed.
Definition or_nil {A} (r : res (list A)) : list A := match r with Ok l => l | Err _ => [] end.
Definition is_ok {A} (r : res A) : bool := match r with Ok _ => true | Err _ => false end.
Lemma ok_nil {A} (r : res (list A)) : is_ok r = true -> r = Ok (or_nil r).
Proof. destruct r; [reflexivity|discriminate]. Qed.
Definition waves_1921 : list wave := Eval vm_compute in or_nil (parse_potential d1921_tab).
Definition waves_1971 : list wave := Eval vm_compute in or_nil (parse_potential ct1971_tab5).
Definition waves_1973 : list wave := Eval vm_compute in or_nil (parse_potential ce1973_tab1).
Lemma read_1921 : parse_potential d1921_tab = Ok waves_1921.
Proof. vm_compute. reflexivity. Qed.
Lemma read_1971 : parse_potential ct1971_tab5 = Ok waves_1971.
Proof. vm_compute. reflexivity. Qed.
Lemma read_1973 : parse_potential ce1973_tab1 = Ok waves_1973.
Proof. vm_compute. reflexivity. Qed.
Theorem C77_numbers : exists a b c,
  parse_potential d1921_tab = Ok a /\ parse_potential ct1971_tab5 = Ok b /\ parse_potential ce1973_tab1 = Ok c
  /\ List.length a = 21%nat /\ List.length b = 99%nat /\ List.length c = 385%nat
  /\ NoDup (map doodson (a ++ b ++ c))
  /\ forall v, In v (a ++ b ++ c) -> in_doodson (cartwright v) (doodson v)
       /\ exists n, to_doodson (cartwright v) true = Ok (Some n) /\ padded n = characters (doodson v).
Proof.
  exists waves_1921, waves_1971, waves_1973.
  split; [exact read_1921|]. split; [exact read_1971|]. split; [exact read_1973|].
  split; [vm_compute; reflexivity|]. split; [vm_compute; reflexivity|]. split; [vm_compute; reflexivity|].
  split; [apply distinct_nodup; vm_compute; reflexivity|].
  assert (K : forallb (fun v => numbered v && encoded v) (waves_1921 ++ waves_1971 ++ waves_1973) = true) by (vm_compute; reflexivity).
  rewrite forallb_forall in K. intros v I. specialize (K v I). apply andb_true_iff in K as [K1 K2]. split; [apply numbered_in, K1|].
  unfold encoded in K2. destruct (to_doodson (cartwright v) true) as [[n|]|]; try discriminate. exists n. split; [reflexivity|]. apply dchars_eqb_eq, K2.
Qed.
Print Assumptions C77_numbers.
