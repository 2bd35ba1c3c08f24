(** C10, C11: Doodson numbers and extended Doodson strings. *)
From Coq Require Import String Ascii List ZArith Bool Lia Btauto.
From Verif Require Import PyBase StrBase DoodsonData DoodsonModel.
Import ListNotations.
Open Scope Z_scope.

(** ** Specification *)
(** A vector can be written with one symbol of 0..9, X, E per component, after
    adding 5 to all but the first. *)
Definition representable (c : list Z) : Prop :=
  exists a b d e f g l, c = a :: b :: d :: e :: f :: g :: l /\ 0 <= a <= 11 /\
    Forall (fun v => -5 <= v <= 6) [b; d; e; f; g].
(** some symbol is X or E *)
Definition has_letter (c : list Z) : Prop :=
  exists a l, firstn 6 c = a :: l /\ (10 <= a \/ Exists (fun v => 5 <= v) l).
Definition last_digit_zero (c : list Z) : Prop := nth 5 c 0 = -5.
Definition all_digits_zero (c : list Z) : Prop := firstn 6 c = [0; -5; -5; -5; -5; -5].

(** ** Proofs *)
Lemma existsb6 : forall {A} (P : A -> bool) a b c d e f,
  existsb P [a; b; c; d; e; f] = P a || P b || P c || P d || P e || P f.
Proof. intros; cbn [existsb]; btauto. Qed.

Lemma weigh6 : forall a b c d e f,
  weigh [a; b; c; d; e; f] 100000 = 100000 * a + 10000 * b + 1000 * c + 100 * d + 10 * e + f.
Proof. intros; cbn [weigh]; change (100000 / 10) with 10000; change (10000 / 10) with 1000;
  change (1000 / 10) with 100; change (100 / 10) with 10; change (10 / 10) with 1; lia. Qed.

Lemma dec3_of : forall a b c, 0 <= a <= 9 -> 0 <= b <= 9 -> 0 <= c <= 9 ->
  dec3 (100 * a + 10 * b + c) = [a; b; c].
Proof.
  intros a b c Ha Hb Hc; unfold dec3.
  assert (E1 : (100 * a + 10 * b + c) / 100 = a) by (Z.to_euclidean_division_equations; lia).
  assert (E2 : (100 * a + 10 * b + c) / 10 = 10 * a + b) by (Z.to_euclidean_division_equations; lia).
  assert (E3 : (10 * a + b) mod 10 = b) by (Z.to_euclidean_division_equations; lia).
  assert (E4 : (100 * a + 10 * b + c) mod 10 = c) by (Z.to_euclidean_division_equations; lia).
  rewrite E1, E2, E3, E4; reflexivity.
Qed.

Lemma str_num_of : forall a b c d e f,
  Forall (fun v => 0 <= v <= 9) [a; b; c; d; e; f] ->
  str_num (100000 * a + 10000 * b + 1000 * c + 100 * d + 10 * e + f)
  = map Dig (strip_lead [a; b; c]) ++ [Dot] ++ map Dig (strip_trail [d; e; f]).
Proof.
  intros a b c d e f H; repeat (apply Forall_cons_iff in H as [?H H]); unfold str_num.
  assert (E1 : (100000 * a + 10000 * b + 1000 * c + 100 * d + 10 * e + f) / 1000
               = 100 * a + 10 * b + c) by (Z.to_euclidean_division_equations; lia).
  assert (E2 : (100000 * a + 10000 * b + 1000 * c + 100 * d + 10 * e + f) mod 1000
               = 100 * d + 10 * e + f) by (Z.to_euclidean_division_equations; lia).
  rewrite E1, E2, !dec3_of by assumption; reflexivity.
Qed.

Lemma zero_dec : forall a, a = 0 \/ match a with 0 => False | _ => True end.
Proof. intros [|p|p]; auto. Qed.

Definition decode6 (a b c d e f : Z) : list Z :=
  let pad := repeat 0 (6 - List.length (strip_lead [a; b; c] ++ strip_trail [d; e; f])) in
  pad ++ strip_lead [a; b; c] ++ strip_trail [d; e; f].

Lemma char_ints : forall l, mapM char_int (map Dig l) = Ok l.
Proof. induction l as [|x l IH]; cbn; [reflexivity|]; now rewrite IH. Qed.

Lemma filter_digs : forall l, filter is_word (map Dig l) = map Dig l.
Proof. induction l as [|x l IH]; cbn; [reflexivity|]; now rewrite IH. Qed.

Lemma map_repeat' : forall {A B} (f : A -> B) x n, map f (repeat x n) = repeat (f x) n.
Proof. induction n; cbn; congruence. Qed.

Lemma from_num : forall a b c d e f,
  Forall (fun v => 0 <= v <= 9) [a; b; c; d; e; f] ->
  from_doodson (Num (100000 * a + 10000 * b + 1000 * c + 100 * d + 10 * e + f))
  = match decode6 a b c d e f with
    | [] => Ok [] | x :: l => Ok (x :: map (fun v => v - 5) l) end.
Proof.
  intros a b c d e f H; unfold from_doodson; rewrite str_num_of by assumption.
  assert (E : filter is_word
      (zfill7 (map Dig (strip_lead [a; b; c]) ++ [Dot] ++ map Dig (strip_trail [d; e; f])))
      = map Dig (decode6 a b c d e f)).
  { unfold zfill7, decode6; rewrite !app_length, !map_length; cbn [List.length].
    rewrite !filter_app, !filter_digs, !map_app, map_repeat'; cbn [filter is_word app].
    rewrite <- (map_repeat' Dig 0), filter_digs, map_repeat'.
    do 2 f_equal; rewrite ?app_length; lia. }
  rewrite E, char_ints; cbn [bind]; reflexivity.
Qed.

Lemma decode6_nz : forall a b c d e f, f <> 0 -> decode6 a b c d e f = [a; b; c; d; e; f].
Proof.
  intros a b c d e f Hf; unfold decode6.
  assert (E : strip_trail [d; e; f] = [d; e; f]) by (destruct f, e; cbn; congruence).
  rewrite E; destruct a as [|p|p], b as [|q|q]; reflexivity.
Qed.

Lemma decode6_zero : forall a b c d e, decode6 a b c d e 0 = [a; b; c; d; e; 0] ->
  a = 0 /\ b = 0 /\ c = 0 /\ d = 0 /\ e = 0.
Proof.
  intros a b c d e; unfold decode6.
  destruct e as [|p|p]; destruct a as [|q|q], b as [|r|r]; cbn; intros H;
    injection H; intros; subst; try discriminate; auto.
Qed.

Lemma rep_split : forall c, representable c ->
  exists a b d e f g, firstn 6 c = [a; b; d; e; f; g] /\ nth 5 c 0 = g /\
   offset c = [a; b + 5; d + 5; e + 5; f + 5; g + 5] /\
   Forall (fun v => 0 <= v <= 11) [a; b + 5; d + 5; e + 5; f + 5; g + 5].
Proof.
  intros c (a & b & d & e & f & g & l & -> & Ha & H).
  repeat (apply Forall_cons_iff in H as [?H H]).
  exists a, b, d, e, f, g; repeat split; repeat constructor; lia.
Qed.

Lemma no_bad : forall l, Forall (fun v => 0 <= v <= 11) l -> existsb bad_digit l = false.
Proof.
  induction 1 as [|x l Hx _ IH]; [reflexivity|]; cbn [existsb]; rewrite IH; unfold bad_digit.
  destruct (x <? 0) eqn:A; destruct (11 <? x) eqn:B; try reflexivity; lia.
Qed.

Lemma big_false : forall l, Forall (fun v => 0 <= v <= 11) l ->
  existsb big_digit l = false <-> Forall (fun v => 0 <= v <= 9) l.
Proof.
  induction 1 as [|x l Hx _ IH]; cbn [existsb]; [split; auto|].
  rewrite orb_false_iff, Forall_cons_iff, IH; unfold big_digit; split; intros [A B]; split; auto.
  - destruct (x =? 10) eqn:?, (x =? 11) eqn:?; try discriminate; lia.
  - destruct (x =? 10) eqn:?, (x =? 11) eqn:?; try reflexivity; lia.
Qed.

Lemma letter_iff : forall c, representable c ->
  existsb big_digit (offset c) = false <-> ~ has_letter c.
Proof.
  intros c Hr; destruct (rep_split c Hr) as (a & b & d & e & f & g & E & _ & Eo & H).
  rewrite Eo, big_false by assumption; unfold has_letter; rewrite E; split.
  - intros K (a' & l & [= <- <-] & D).
    repeat (apply Forall_cons_iff in K as [?K K]).
    destruct D as [D|D]; [lia|].
    repeat (apply Exists_cons in D as [D|D]; [lia|]); inversion D.
  - intros K; repeat (apply Forall_cons_iff in H as [?H H]); repeat constructor; try lia.
    all: match goal with |- ?v <= 9 => destruct (Z_le_gt_dec v 9) as [?|Q]; [assumption|exfalso; apply K] end.
    all: exists a, [b; d; e; f; g]; split; [reflexivity|].
    1: left; lia.
    all: right; rewrite !Exists_cons; lia.
Qed.

Lemma char_digit : forall v, 0 <= v <= 11 -> char_int (digit_char v) = Ok v /\ is_word (digit_char v) = true.
Proof.
  intros v Hv; unfold digit_char.
  destruct (v =? 10) eqn:A; [apply Z.eqb_eq in A; subst; auto|].
  destruct (v =? 11) eqn:B; [apply Z.eqb_eq in B; subst; auto|]; auto.
Qed.

Lemma digit_char_inj : forall v w, digit_char v = digit_char w -> v = w.
Proof.
  intros v w; unfold digit_char.
  destruct (Z.eqb_spec v 10), (Z.eqb_spec v 11), (Z.eqb_spec w 10), (Z.eqb_spec w 11);
    try discriminate; try lia; now intros [= ->].
Qed.

Lemma from_str : forall a b c d e f,
  Forall (fun v => 0 <= v <= 11) [a; b; c; d; e; f] ->
  from_doodson (Str [digit_char a; digit_char b; digit_char c; Dot;
                     digit_char d; digit_char e; digit_char f])
  = Ok [a; b - 5; c - 5; d - 5; e - 5; f - 5].
Proof.
  intros a b c d e f H; repeat (apply Forall_cons_iff in H as [?H H]).
  destruct (char_digit a H0), (char_digit b H1), (char_digit c H2),
    (char_digit d H3), (char_digit e H4), (char_digit f H5).
  unfold from_doodson, zfill7; cbn [List.length Nat.sub repeat app].
  cbn [filter]. 
  repeat match goal with E : is_word ?x = true |- _ => rewrite E; clear E end.
  cbn [filter is_word mapM].
  repeat match goal with E : char_int ?x = _ |- _ => rewrite E; clear E end.
  reflexivity.
Qed.

Lemma to_num : forall c r a b d e f g, offset c = [a; b; d; e; f; g] ->
  Forall (fun v => 0 <= v <= 9) [a; b; d; e; f; g] ->
  to_doodson c r = Ok (Some (Num (100000 * a + 10000 * b + 1000 * d + 100 * e + 10 * f + g))).
Proof.
  intros c r a b d e f g E H; unfold to_doodson; rewrite E, weigh6.
  assert (H' : Forall (fun v => 0 <= v <= 11) [a; b; d; e; f; g])
    by (eapply Forall_impl; [|exact H]; cbv beta; intros; lia).
  rewrite no_bad by assumption.
  rewrite (proj2 (big_false _ H') H); reflexivity.
Qed.

Lemma to_str : forall c r a b d e f g, offset c = [a; b; d; e; f; g] ->
  Forall (fun v => 0 <= v <= 11) [a; b; d; e; f; g] ->
  existsb big_digit [a; b; d; e; f; g] = true ->
  to_doodson c r = Ok (Some (Str [digit_char a; digit_char b; digit_char d; Dot;
                     digit_char e; digit_char f; digit_char g])).
Proof.
  intros c r a b d e f g E H B; unfold to_doodson; rewrite E, no_bad, B by assumption; reflexivity.
Qed.

(** ** C10 *)
(** Exactly which representable vectors survive the round trip. *)
Theorem C10_roundtrip_iff_partial : forall c r, representable c ->
  exists n, to_doodson c r = Ok (Some n) /\
   (from_doodson n = Ok (firstn 6 c) <->
    has_letter c \/ ~ last_digit_zero c \/ all_digits_zero c).
(* Missing from the full property: vectors whose number is written without X
   or E and ends in 0, see C10_roundtrip_refuted. *)
Proof.
  intros c r Hr; pose proof (letter_iff c Hr) as L.
  destruct (rep_split c Hr) as (a & b & d & e & f & g & E & N & Eo & H).
  unfold last_digit_zero, all_digits_zero; rewrite N, E.
  destruct (existsb big_digit (offset c)) eqn:B.
  - eexists; split; [eapply to_str; [exact Eo|exact H|rewrite <- Eo; exact B]|].
    rewrite from_str by assumption.
    assert (K : has_letter c).
    { unfold has_letter; rewrite E; exists a, [b; d; e; f; g]; split; [reflexivity|].
      rewrite Eo in B; rewrite existsb6 in B; unfold big_digit in B.
      destruct (Z_le_gt_dec 10 a); [left; assumption|right].
      rewrite !Exists_cons.
      repeat (apply orb_true_iff in B as [B|B]); lia. }
    split; [intros _; left; exact K|intros _]; repeat f_equal; lia.
  - rewrite Eo in B; pose proof (proj1 (big_false _ H) B) as H9.
    eexists; split; [eapply to_num; [exact Eo|exact H9]|].
    rewrite from_num by assumption.
    assert (NL : ~ has_letter c) by (apply L; reflexivity).
    destruct (Z.eq_dec g (-5)) as [->|Hg].
    + split.
      * intros K; right; right.
        change (-5 + 5) with 0 in K.
        assert (D : decode6 a (b + 5) (d + 5) (e + 5) (f + 5) 0
                    = [a; b + 5; d + 5; e + 5; f + 5; 0]).
        { destruct (decode6 a (b + 5) (d + 5) (e + 5) (f + 5) 0) as [|x l]; [discriminate|].
          apply Ok_inj in K; injection K as -> K; f_equal.
          do 5 (destruct l as [|? l]; [discriminate|]).
          injection K as K1 K2 K3 K4 K5 K6; destruct l; [|discriminate].
          repeat f_equal; lia. }
        apply decode6_zero in D as (? & ? & ? & ? & ?); repeat f_equal; lia.
      * intros [K|[K|K]]; [contradiction|lia|].
        injection K as -> -> -> -> ->; reflexivity.
    + rewrite decode6_nz by lia.
      split; [intros _; right; left; exact Hg|intros _].
      cbn [map]; repeat f_equal; lia.
Qed.
Print Assumptions C10_roundtrip_iff_partial.

(** A representable vector that comes back as a different one, silently. *)
Theorem C10_roundtrip_refuted :
  exists c n, representable c /\ to_doodson c true = Ok (Some n) /\
    exists c', from_doodson n = Ok c' /\ List.length c' = 6%nat /\ c' <> firstn 6 c.
Proof.
  exists [2; 0; 0; 0; 0; -5], (Num 255550); split.
  - exists 2, 0, 0, 0, 0, (-5), []; repeat split; repeat constructor; lia.
  - split; [reflexivity|]; exists [0; -3; 0; 0; 0; 0]; repeat split; discriminate.
Qed.
Print Assumptions C10_roundtrip_refuted.

(** Two vectors never share a number. *)
Theorem C10_injective : forall c1 c2 r1 r2, representable c1 -> representable c2 ->
  to_doodson c1 r1 = to_doodson c2 r2 -> firstn 6 c1 = firstn 6 c2.
Proof.
  intros c1 c2 r1 r2 R1 R2.
  destruct (rep_split c1 R1) as (a & b & d & e & f & g & E & N & Eo & H).
  destruct (rep_split c2 R2) as (a' & b' & d' & e' & f' & g' & E' & N' & Eo' & H').
  rewrite E, E'.
  destruct (existsb big_digit (offset c1)) eqn:B; rewrite Eo in B;
    destruct (existsb big_digit (offset c2)) eqn:B'; rewrite Eo' in B'.
  - rewrite (to_str c1 r1 _ _ _ _ _ _ Eo H B), (to_str c2 r2 _ _ _ _ _ _ Eo' H' B').
    intros [= K1 K2 K3 K4 K5 K6].
    apply digit_char_inj in K1, K2, K3, K4, K5, K6; repeat f_equal; lia.
  - rewrite (to_str c1 r1 _ _ _ _ _ _ Eo H B).
    rewrite (to_num c2 r2 _ _ _ _ _ _ Eo' (proj1 (big_false _ H') B')); discriminate.
  - rewrite (to_str c2 r2 _ _ _ _ _ _ Eo' H' B').
    rewrite (to_num c1 r1 _ _ _ _ _ _ Eo (proj1 (big_false _ H) B)); discriminate.
  - apply (big_false _ H) in B; apply (big_false _ H') in B'.
    rewrite (to_num c1 r1 _ _ _ _ _ _ Eo B), (to_num c2 r2 _ _ _ _ _ _ Eo' B').
    intros K; apply Ok_inj in K; assert (K' : forall x y, Some (Num x) = Some (Num y) -> x = y) by congruence.
    apply K' in K; clear K'.
    repeat (apply Forall_cons_iff in B as [?K B]); repeat (apply Forall_cons_iff in B' as [?K B']).
    assert (a = a') by lia; assert (b = b') by lia; assert (d = d') by lia;
      assert (e = e') by lia; assert (f = f') by lia; assert (g = g') by lia; congruence.
Qed.
Print Assumptions C10_injective.

(** Vectors that are not representable are rejected: an exception, or None when
    exceptions are switched off. *)
Theorem C10_rejects : forall c r, (6 <= List.length c)%nat -> ~ representable c ->
  to_doodson c r = if r then Err ValueError else Ok None.
Proof.
  intros c r Hl Hn; do 6 (destruct c as [|? c]; [cbn in Hl; lia|]); clear Hl.
  unfold to_doodson, offset; cbn [firstn map].
  destruct (existsb bad_digit [z; z0 + 5; z1 + 5; z2 + 5; z3 + 5; z4 + 5]) eqn:B; [reflexivity|].
  exfalso; apply Hn; exists z, z0, z1, z2, z3, z4, c; split; [reflexivity|].
  rewrite existsb6 in B; unfold bad_digit in B.
  repeat (apply orb_false_iff in B as [B ?]).
  repeat match goal with K : (_ || _) = false |- _ => apply orb_false_iff in K as [? ?] end.
  split; [lia|]; repeat constructor; lia.
Qed.
Print Assumptions C10_rejects.

(** The numbers are the positional numbers of Doodson: with digits abc.def. *)
Theorem C10_number_value : forall a b d e f g l r,
  0 <= a <= 9 -> Forall (fun v => -5 <= v <= 4) [b; d; e; f; g] ->
  to_doodson (a :: b :: d :: e :: f :: g :: l) r
  = Ok (Some (Num (1000 * (100 * a + 10 * (b + 5) + (d + 5))
                   + (100 * (e + 5) + 10 * (f + 5) + (g + 5))))).
Proof.
  intros a b d e f g l r Ha H; repeat (apply Forall_cons_iff in H as [?H H]).
  rewrite (to_num _ r a (b + 5) (d + 5) (e + 5) (f + 5) (g + 5)).
  - do 3 f_equal; lia.
  - reflexivity.
  - repeat constructor; lia.
Qed.
Print Assumptions C10_number_value.

Example C10_m2 : to_doodson [2; 0; 0; 0; 0; 0; 0] true = Ok (Some (Num 255555)). Proof. reflexivity. Qed.
Example C10_case_letter : to_doodson [2; 6; 0; 0; 0; -5] true
  = Ok (Some (Str [Dig 2; CE; Dig 5; Dot; Dig 5; Dig 5; Dig 0])). Proof. reflexivity. Qed.
Example C10_case_roundtrip : from_doodson (Num 55565) = Ok [0; 0; 0; 0; 1; 0]. Proof. reflexivity. Qed.
Example C10_case_reject : ~ representable [2; 7; 0; 0; 0; 0].
Proof.
  intros (? & ? & ? & ? & ? & ? & ? & [= <- <- <- <- <- <- _] & _ & H).
  apply Forall_cons_iff in H as [H _]; lia.
Qed.

(** Every constituent of the shipped table, whatever the case of its name: the
    Doodson number either decodes to its Cartwright number or the constituent
    is rejected. *)
Definition table_ok (coef : list Z) : bool :=
  match to_doodson coef true with
  | Ok (Some n) => match from_doodson n with
                   | Ok c => if list_eq_dec Z.eq_dec c (firstn 6 coef) then true else false
                   | Err _ => false end
  | Ok None => false
  | Err ValueError => true
  | Err _ => false
  end.

Lemma coefficients_forall : forall (P : list Z -> bool),
  P [1; 1; -1; 0; 0; 0; 1] = true -> forallb (fun p => P (snd p)) doodson_table = true ->
  forall corr c v, coefficients corr c = Ok v -> P v = true.
Proof.
  intros P P1 PT corr c v; unfold coefficients.
  destruct (otis_corr corr && (c =? "s1")%string); [intros <-%Ok_inj; exact P1|].
  unfold assoc; destruct (find _ doodson_table) as [[k w]|] eqn:F; [|discriminate].
  apply find_some in F as [F _]; rewrite forallb_forall in PT.
  intros <-%Ok_inj; exact (PT _ F).
Qed.

Theorem C10_table_roundtrip : forall corr c n,
  doodson_number_one corr "Doodson" true c = Ok (Some (NDood (Some n))) ->
  exists k, doodson_number_one corr "Cartwright" true c = Ok (Some (NCart k)) /\
    from_doodson n = Ok k.
Proof.
  intros corr c n; unfold doodson_number_one.
  change (parse_formalism "Doodson") with (Ok Doodson).
  change (parse_formalism "Cartwright") with (Ok Cartwright).
  cbn [bind]; destruct (coefficients corr (lower c)) as [v|[]] eqn:E; try discriminate.
  cbn [identify bind]; destruct (to_doodson v true) as [d|?] eqn:T; [|discriminate].
  cbn [bind]; intros K; apply Ok_inj in K; injection K as ->.
  exists (firstn 6 v); split; [reflexivity|].
  assert (Q : table_ok v = true).
  { apply (coefficients_forall table_ok) with (corr := corr) (c := lower c); [reflexivity|vm_compute; reflexivity|exact E]. }
  unfold table_ok in Q; rewrite T in Q.
  destruct (from_doodson n) as [k|]; [|discriminate].
  destruct (list_eq_dec Z.eq_dec k (firstn 6 v)); [congruence|discriminate].
Qed.
Print Assumptions C10_table_roundtrip.
Example C10_table_case :
  doodson_number_one "OTIS" "Doodson" true "M2" = Ok (Some (NDood (Some (Num 255555)))).
Proof. vm_compute; reflexivity. Qed.

(** A dictionary of numbers has one entry per distinct name, holding what the
    single-name call returns. *)
Theorem C10_dictionary : forall corr form r cs d,
  doodson_number_list corr form r cs = Ok d ->
  (forall c, In c (map fst d) <-> In c cs) /\ NoDup (map fst d) /\
  (forall c n, In (c, n) d -> doodson_number_one corr form r c = Ok n).
Proof.
  intros corr form r cs d; unfold doodson_number_list.
  destruct (parse_formalism form); [|discriminate]; cbn [bind]; intros H.
  assert (K : map fst d = nodup string_dec cs /\
    forall c n, In (c, n) d -> doodson_number_one corr form r c = Ok n).
  { revert d H; generalize (nodup string_dec cs); induction l as [|c l IH]; intros d H.
    - apply Ok_inj in H; subst; split; [reflexivity|intros ? ? []].
    - cbn [mapM] in H.
      destruct (doodson_number_one corr form r c) as [n|] eqn:E; [|discriminate]; cbn [bind] in H.
      destruct (mapM _ l) as [d'|]; [|discriminate]; cbn [bind] in H; apply Ok_inj in H; subst d.
      destruct (IH d' eq_refl) as [I1 I2]; split; [cbn; now f_equal|].
      intros c' n' [[= <- <-]|Hin]; [exact E|auto]. }
  destruct K as [K1 K2]; rewrite K1; split; [|split; [apply NoDup_nodup|exact K2]].
  intros c; apply nodup_In.
Qed.
Print Assumptions C10_dictionary.
Example C10_dictionary_case :
  doodson_number_list "OTIS" "doodson" false ["m2"; "zz"; "m2"]%string
  = Ok [("zz"%string, None); ("m2"%string, Some (NDood (Some (Num 255555))))].
Proof. vm_compute; reflexivity. Qed.

(** Neither the case of the name nor that of the formalism matters. *)
Lemma title_lower : forall s p, title_from p (lower s) = title_from p s.
Proof.
  induction s as [|c s IH]; intros p; [reflexivity|].
  cbn [lower smap title_from]; change (smap lower_ascii s) with (lower s); rewrite IH.
  destruct c as [[] [] [] [] [] [] [] []], p; reflexivity.
Qed.

Theorem C10_case_insensitive : forall corr form r c form' c',
  lower form = lower form' -> lower c = lower c' ->
  doodson_number_one corr form r c = doodson_number_one corr form' r c'.
Proof.
  intros corr form r c form' c' Hf Hc; unfold doodson_number_one, parse_formalism, title.
  rewrite Hc, <- (title_lower form), Hf, title_lower; reflexivity.
Qed.
Print Assumptions C10_case_insensitive.

(** Unknown names and unknown formalisms. *)
Theorem C10_unknown_name : forall corr form r c,
  parse_formalism form <> Err AssertionError ->
  (forall v, ~ In (lower c, v) doodson_table) ->
  doodson_number_one corr form r c = if r then Err ValueError else Ok None.
Proof.
  intros corr form r c Hf Hc; unfold doodson_number_one.
  assert (exists f, parse_formalism form = Ok f) as [f ->].
  { unfold parse_formalism in *; destruct (String.eqb _ _); [eauto|].
    destruct (String.eqb _ _); [eauto|]; destruct (String.eqb _ _); [eauto|congruence]. }
  cbn [bind].
  assert (E : coefficients corr (lower c) = Err ValueError).
  { unfold coefficients, assoc.
    destruct (String.eqb_spec (lower c) "s1") as [Es|_].
    - exfalso; apply (Hc [1; 1; -1; 0; 0; 0; 2]); rewrite Es.
      apply (nth_error_In doodson_table 67); vm_compute; reflexivity.
    - rewrite andb_false_r; destruct (find _ doodson_table) as [[k w]|] eqn:F; [|reflexivity].
      apply find_some in F as [F F']; apply String.eqb_eq in F'; cbn in F'; subst.
      destruct (Hc w F). }
  rewrite E; reflexivity.
Qed.
Print Assumptions C10_unknown_name.

(** ** C11 *)
Definition ext_ok (v : Z) : Prop := -8 <= v <= 16.

Lemma str_index_nth : forall l c i k, nth_error l i = Some c -> NoDup l ->
  str_index c l k = Ok (k + Z.of_nat i).
Proof.
  induction l as [|x l IH]; intros c i k H N; [destruct i; discriminate|].
  inversion_clear N as [|? ? N1 N2]; destruct i as [|i].
  - injection H as ->; cbn [str_index]; rewrite Ascii.eqb_refl; f_equal; lia.
  - cbn [nth_error] in H; cbn [str_index].
    destruct (Ascii.eqb_spec x c) as [->|_]; [destruct N1; eapply nth_error_In; eauto|].
    rewrite (IH c i (k + 1) H N2); f_equal; lia.
Qed.

Lemma xdigits_nodup : NoDup xdigits.
Proof.
  unfold xdigits; cbn.
  repeat (constructor; [intros K; cbn in K; repeat (destruct K as [K|K]; [discriminate|]); exact K|]).
  constructor.
Qed.

Lemma xdigits_len : List.length xdigits = 25%nat. Proof. reflexivity. Qed.

Lemma py_index_spec : forall v, -33 <= v <= 16 ->
  exists c, py_index xdigits (v + 8) = Ok c /\
    (do i <- str_index c xdigits 0 ;; Ok (i - 8)) = Ok (if v <? -8 then v + 25 else v).
Proof.
  intros v Hv; unfold py_index; rewrite xdigits_len; change (Z.of_nat 25) with 25.
  set (j := if v + 8 <? 0 then v + 8 + 25 else v + 8).
  assert (Hj : 0 <= j < 25) by (unfold j; destruct (v + 8 <? 0) eqn:B; lia).
  assert (E : (0 <=? j) && (j <? 25) = true) by lia; rewrite E.
  destruct (nth_error xdigits (Z.to_nat j)) as [c|] eqn:N.
  - exists c; split; [reflexivity|].
    rewrite (str_index_nth _ _ _ 0 N xdigits_nodup); cbn [bind]; f_equal.
    unfold j in *; destruct (v + 8 <? 0) eqn:B, (v <? -8) eqn:B'; lia.
  - apply nth_error_None in N; rewrite xdigits_len in N; lia.
Qed.

Lemma py_index_err : forall v, v < -33 \/ 16 < v -> py_index xdigits (v + 8) = Err IndexError.
Proof.
  intros v Hv; unfold py_index; rewrite xdigits_len; change (Z.of_nat 25) with 25.
  destruct (v + 8 <? 0) eqn:B.
  - assert (E : (0 <=? v + 8 + 25) && (v + 8 + 25 <? 25) = false) by lia; now rewrite E.
  - assert (E : (0 <=? v + 8) && (v + 8 <? 25) = false) by lia; now rewrite E.
Qed.

Lemma to_ext_gen : forall c, Forall (fun v => -33 <= v <= 16) c ->
  exists s, to_extended c = Ok s /\ List.length s = List.length c /\
    from_extended s = Ok (map (fun v => if v <? -8 then v + 25 else v) c).
Proof.
  induction 1 as [|v c Hv _ (s & IH1 & IH2 & IH3)]; [exists []; auto|].
  destruct (py_index_spec v Hv) as (x & P1 & P2).
  exists (x :: s); unfold to_extended, from_extended in *; cbn [mapM].
  rewrite P1, P2, IH1, IH3; cbn [bind List.length map]; repeat split; congruence.
Qed.

Lemma map_small : forall c, Forall ext_ok c ->
  map (fun v => if v <? -8 then v + 25 else v) c = c.
Proof.
  induction 1 as [|v c Hv _ IH]; [reflexivity|]; cbn [map]; rewrite IH.
  unfold ext_ok in Hv; destruct (v <? -8) eqn:B; [lia|reflexivity].
Qed.

Lemma ext_ok_wide : forall c, Forall ext_ok c -> Forall (fun v => -33 <= v <= 16) c.
Proof. intros c H; eapply Forall_impl; [|exact H]; unfold ext_ok; intros; lia. Qed.

(** Round trip for every vector (of any length) with components in -8..16. *)
Theorem C11_roundtrip : forall c, Forall ext_ok c ->
  exists s, to_extended c = Ok s /\ List.length s = List.length c /\ from_extended s = Ok c.
Proof.
  intros c H; destruct (to_ext_gen c (ext_ok_wide c H)) as (s & E1 & E2 & E3).
  exists s; rewrite map_small in E3 by assumption; auto.
Qed.
Print Assumptions C11_roundtrip.

Theorem C11_injective : forall c1 c2, Forall ext_ok c1 -> Forall ext_ok c2 ->
  to_extended c1 = to_extended c2 -> c1 = c2.
Proof.
  intros c1 c2 H1 H2 E.
  destruct (C11_roundtrip c1 H1) as (s1 & A1 & _ & B1), (C11_roundtrip c2 H2) as (s2 & A2 & _ & B2).
  congruence.
Qed.
Print Assumptions C11_injective.

(** Only part of the outside is rejected. *)
Theorem C11_rejects_outside_partial : forall c,
  Exists (fun v => v < -33 \/ 16 < v) c -> to_extended c = Err IndexError.
(* Missing: components in -33..-9, see C11_rejects_outside_refuted. *)
Proof.
  induction c as [|v c IH]; intros H; [inversion H|].
  unfold to_extended in *; cbn [mapM].
  destruct (Z_lt_dec v (-33)) as [L|L]; [rewrite py_index_err by lia; reflexivity|].
  destruct (Z_lt_dec 16 v) as [L'|L']; [rewrite py_index_err by lia; reflexivity|].
  apply Exists_cons in H as [H|H]; [lia|].
  destruct (py_index_spec v) as (x & -> & _); [lia|]; cbn [bind]; rewrite IH by assumption; reflexivity.
Qed.
Print Assumptions C11_rejects_outside_partial.

(** Every vector with a component in -33..-9 gets the string of another vector. *)
Theorem C11_rejects_outside_refuted : forall c,
  Forall (fun v => -33 <= v <= 16) c -> Exists (fun v => v < -8) c ->
  exists c', c' <> c /\ Forall ext_ok c' /\ to_extended c' = to_extended c /\
    exists s, to_extended c = Ok s.
Proof.
  intros c H X; exists (map (fun v => if v <? -8 then v + 25 else v) c).
  assert (F : Forall ext_ok (map (fun v => if v <? -8 then v + 25 else v) c)).
  { clear X; induction H as [|v c Hv _ IH]; constructor; auto.
    unfold ext_ok; destruct (v <? -8) eqn:B; lia. }
  split; [|split; [exact F|split]].
  - intros E; apply Exists_exists in X as (v & Hin & Hv).
    rewrite <- E in Hin; rewrite Forall_forall in F; specialize (F v Hin); unfold ext_ok in F; lia.
  - clear X F; induction H as [|v c Hv _ IH]; [reflexivity|].
    unfold to_extended in *; cbn [map mapM]; rewrite IH; clear IH.
    assert (E : py_index xdigits ((if v <? -8 then v + 25 else v) + 8) = py_index xdigits (v + 8)).
    { destruct (v <? -8) eqn:B; [|reflexivity].
      unfold py_index; rewrite xdigits_len; change (Z.of_nat 25) with 25.
      destruct (v + 25 + 8 <? 0) eqn:B1; [lia|]; destruct (v + 8 <? 0) eqn:B2; [|lia].
      replace (v + 8 + 25) with (v + 25 + 8) by lia; reflexivity. }
    rewrite E; reflexivity.
  - destruct (to_ext_gen c H) as (s & E & _); eauto.
Qed.
Print Assumptions C11_rejects_outside_refuted.
Example C11_wrap_case : to_extended [-9; 0; 0; 0; 0; 0; 0] = to_extended [16; 0; 0; 0; 0; 0; 0].
Proof. reflexivity. Qed.

(** Strings: decoding then encoding gives the string back, and a string with a
    character outside the alphabet is rejected. *)
Lemma str_index_some : forall l c k v, str_index c l k = Ok v ->
  k <= v /\ nth_error l (Z.to_nat (v - k)) = Some c.
Proof.
  induction l as [|x l IH]; intros c k v; cbn [str_index]; [discriminate|].
  destruct (Ascii.eqb_spec x c) as [->|_].
  - intros <-%Ok_inj; rewrite Z.sub_diag; split; [lia|reflexivity].
  - intros H; apply IH in H as [H1 H2]; split; [lia|].
    replace (Z.to_nat (v - k)) with (S (Z.to_nat (v - (k + 1)))) by lia; exact H2.
Qed.

Lemma str_index_none : forall l c k, ~ In c l -> str_index c l k = Err ValueError.
Proof.
  induction l as [|x l IH]; intros c k H; [reflexivity|]; cbn [str_index].
  destruct (Ascii.eqb_spec x c) as [->|_]; [destruct H; now left|].
  apply IH; intros K; apply H; now right.
Qed.

Theorem C11_string_roundtrip : forall s c, from_extended s = Ok c ->
  Forall ext_ok c /\ to_extended c = Ok s.
Proof.
  unfold from_extended, to_extended; induction s as [|x s IH]; intros c; cbn [mapM].
  - intros <-%Ok_inj; split; [constructor|reflexivity].
  - destruct (str_index x xdigits 0) as [i|] eqn:E; [|discriminate]; cbn [bind].
    destruct (mapM _ s) as [c'|]; [|discriminate]; cbn [bind]; intros <-%Ok_inj.
    destruct (IH c' eq_refl) as [I1 I2]; apply str_index_some in E as [E1 E2].
    rewrite Z.sub_0_r in E2.
    assert (E3 : (Z.to_nat i < 25)%nat)
      by (rewrite <- xdigits_len; apply nth_error_Some; congruence).
    split; [constructor; [unfold ext_ok; lia|exact I1]|].
    cbn [mapM]; rewrite I2; replace (i - 8 + 8) with i by lia.
    unfold py_index; rewrite xdigits_len; change (Z.of_nat 25) with 25.
    destruct (i <? 0) eqn:B; [lia|].
    assert (E4 : (0 <=? i) && (i <? 25) = true) by lia; rewrite E4, E2; reflexivity.
Qed.
Print Assumptions C11_string_roundtrip.

Theorem C11_bad_string_rejected : forall s,
  Exists (fun x => ~ In x (list_ascii_of_string "RSTUVWXYZABCDEFGHIJKLMNOP")) s ->
  from_extended s = Err ValueError.
Proof.
  unfold from_extended; induction s as [|x s IH]; intros H; [inversion H|]; cbn [mapM].
  destruct (in_dec ascii_dec x xdigits) as [I|I]; [|rewrite str_index_none by assumption; reflexivity].
  apply Exists_cons in H as [H|H]; [destruct H; exact I|].
  destruct (str_index x xdigits 0) as [i|e] eqn:E.
  - cbn [bind]; rewrite IH by assumption; reflexivity.
  - assert (K : forall l k, str_index x l k = Err e -> e = ValueError).
    { induction l as [|y l IHl]; intros k; cbn [str_index]; [congruence|].
      destruct (Ascii.eqb y x); [discriminate|apply IHl]. }
    rewrite (K _ _ E); reflexivity.
Qed.
Print Assumptions C11_bad_string_rejected.

(** The UKHO alphabet: Z is 0, A..P are 1..16, R..Y are -8..-1. *)
Theorem C11_alphabet :
  to_extended [0] = Ok (list_ascii_of_string "Z") /\
  to_extended [1; 2; 3; 4; 5; 6; 7; 8; 9; 10; 11; 12; 13; 14; 15; 16]
    = Ok (list_ascii_of_string "ABCDEFGHIJKLMNOP") /\
  to_extended [-8; -7; -6; -5; -4; -3; -2; -1] = Ok (list_ascii_of_string "RSTUVWXY").
Proof. repeat split. Qed.
Print Assumptions C11_alphabet.

(** Every constituent of the shipped table has an extended number of seven
    letters; it decodes to the coefficients of the constituent, except for the
    five constituents named here. *)
Definition wrapped_names : list string := ["2t7"; "s9"; "s10"; "s11"; "s12"]%string.

Theorem C11_table_roundtrip_partial : forall corr c v, coefficients corr c = Ok v ->
  exists s, to_extended v = Ok s /\ List.length s = 7%nat /\
    (from_extended s = Ok v <-> ~ In c wrapped_names).
(* Missing: the five names, see C11_table_roundtrip_refuted. *)
Proof.
  intros corr c v E.
  pose (P := fun p : string * list Z =>
     match to_extended (snd p) with
     | Ok s => (List.length s =? 7)%nat &&
        match from_extended s with
        | Ok w => Bool.eqb (if list_eq_dec Z.eq_dec w (snd p) then true else false)
                           (negb (mem_str (fst p) wrapped_names))
        | Err _ => false end
     | Err _ => false end).
  assert (Q : P (c, v) = true).
  { unfold coefficients in E; destruct (otis_corr corr && (c =? "s1")%string) eqn:B.
    - apply andb_true_iff in B as [_ B]; apply String.eqb_eq in B; subst.
      apply Ok_inj in E; subst; vm_compute; reflexivity.
    - unfold assoc in E; destruct (find _ doodson_table) as [[k w]|] eqn:F; [|discriminate].
      apply find_some in F as [F F']; apply String.eqb_eq in F'; cbn [fst] in F'; subst.
      apply Ok_inj in E; cbn [snd] in E; subst.
      assert (T : forallb P doodson_table = true) by (vm_compute; reflexivity).
      rewrite forallb_forall in T; exact (T _ F). }
  unfold P in Q; cbn [fst snd] in Q; clear P.
  destruct (to_extended v) as [s|] eqn:T; [|discriminate].
  apply andb_true_iff in Q as [Q1 Q2]; apply Nat.eqb_eq in Q1.
  exists s; split; [reflexivity|]; split; [exact Q1|].
  destruct (from_extended s) as [w|] eqn:Fr; [|discriminate].
  apply Bool.eqb_prop in Q2.
  destruct (list_eq_dec Z.eq_dec w v) as [->|Hn]; symmetry in Q2.
  - split; [intros _ K|reflexivity].
    apply mem_str_In in K; rewrite K in Q2; discriminate.
  - split; [intros K; apply Ok_inj in K; contradiction|].
    intros K; exfalso; apply K, mem_str_In.
    destruct (mem_str c wrapped_names); [reflexivity|discriminate].
Qed.
Print Assumptions C11_table_roundtrip_partial.

(** doodson_number('s9', formalism='Extended') is the string of 16 solar
    longitudes, not of -9. *)
Theorem C11_table_roundtrip_refuted :
  doodson_number_one "OTIS" "Extended" true "s9" = Ok (Some (NExt (list_ascii_of_string "IIPZZZZ"))) /\
  doodson_number_one "OTIS" "Cartwright" true "s9" = Ok (Some (NCart [9; 9; -9; 0; 0; 0])) /\
  from_extended (list_ascii_of_string "IIPZZZZ") = Ok [9; 9; 16; 0; 0; 0; 0].
Proof. repeat split; vm_compute; reflexivity. Qed.
Print Assumptions C11_table_roundtrip_refuted.
Example C11_m2 : (do v <- coefficients "OTIS" "m2" ;; to_extended v)
  = Ok (list_ascii_of_string "BZZZZZZ").
Proof. vm_compute; reflexivity. Qed.
