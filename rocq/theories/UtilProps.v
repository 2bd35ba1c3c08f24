(** C53: small utilities; C48: data type detection. *)
From Coq Require Import String Ascii List Arith ZArith Bool Lia Reals Lra.
From Verif Require Import PyBase StrBase RBase UtilModel UtilSpec.
Import ListNotations.
Open Scope nat_scope.
Open Scope string_scope.

(** * url_split *)
Lemma app_s_assoc (a b c : string) : (a ++ b) ++ c = a ++ b ++ c.
Proof. induction a; cbn; congruence. Qed.

Lemma rsplit_plain p : ~ In slash (list_ascii_of_string p) -> rsplit p = ("", p).
Proof.
  induction p as [|c p IH]; cbn; intros N; [reflexivity|]. rewrite IH by tauto.
  destruct (Ascii.eqb c slash) eqn:E; [|reflexivity]. apply Ascii.eqb_eq in E. subst. tauto.
Qed.
Lemma rsplit_join a p : ~ In slash (list_ascii_of_string p) -> rsplit (a ++ "/" ++ p) = (a ++ "/", p).
Proof.
  intros N. induction a as [|c a IH].
  - cbn. now rewrite rsplit_plain.
  - change (rsplit (String c a ++ "/" ++ p)) with
      (let (h, t) := rsplit (a ++ "/" ++ p) in
       match h with "" => if Ascii.eqb c slash then (String c "", t) else ("", String c t) | _ => (String c h, t) end).
    rewrite IH. destruct a; reflexivity.
Qed.
Lemma rstrip_app a b : rstrip b <> "" -> rstrip (a ++ b) = a ++ rstrip b.
Proof.
  intros N. induction a as [|c a IH]; cbn; [reflexivity|]. rewrite IH.
  destruct (a ++ rstrip b) eqn:E; [|reflexivity]. destruct a; cbn in E; congruence.
Qed.
Lemma rstrip_slash a : rstrip (a ++ "/") = rstrip a.
Proof. induction a as [|c a IH]; cbn; [reflexivity|]. now rewrite IH. Qed.
Lemma rstrip_plain p : ~ In slash (list_ascii_of_string p) -> rstrip p = p.
Proof.
  induction p as [|c p IH]; cbn; intros N; [reflexivity|]. rewrite IH by tauto.
  destruct p; [|reflexivity]. destruct (Ascii.eqb c slash) eqn:E; [|reflexivity].
  apply Ascii.eqb_eq in E. subst. tauto.
Qed.
Lemma rstrip_end a p : part p -> rstrip (a ++ p) = a ++ p.
Proof.
  intros [N S0]. rewrite rstrip_app; rewrite rstrip_plain; auto.
Qed.
Lemma not_all_slashes a p : part p -> all_slashes (a ++ p ++ "/") = false.
Proof.
  intros [N S0]. induction a as [|c a IH]; cbn; [|now rewrite IH, andb_false_r].
  destruct p as [|c p]; [congruence|]. cbn in *. destruct (Ascii.eqb c slash) eqn:E; [|reflexivity].
  apply Ascii.eqb_eq in E. subst. tauto.
Qed.

(** splitting off the last part *)
Lemma path_split_last a p q : part p -> part q -> path_split ((a ++ p) ++ "/" ++ q) = (a ++ p, q).
Proof.
  intros P Q. unfold path_split. rewrite rsplit_join by apply Q.
  rewrite app_s_assoc, not_all_slashes by assumption. rewrite <- app_s_assoc, rstrip_slash, rstrip_end by assumption.
  reflexivity.
Qed.
Lemma path_split_single p : part p -> path_split p = ("", p).
Proof. intros [N S0]. unfold path_split. now rewrite rsplit_plain. Qed.

Lemma joined_app l : forall f p, joined f (l ++ [p]) = joined f l ++ "/" ++ p.
Proof. induction l as [|x l IH]; intros f p; cbn; [reflexivity|]. apply IH. Qed.

Definition schemes : list string := ["http:"; "https:"; "ftp:"; "s3:"].
Lemma slash_in_app a b : In slash (list_ascii_of_string (a ++ "/" ++ b)).
Proof. induction a; cbn; auto. Qed.
Lemma schemes_plain s : In s schemes -> ~ In slash (list_ascii_of_string s).
Proof.
  intros I J. unfold schemes in I. cbn in I.
  repeat destruct I as [I|I]; try (subst s; cbn in J; repeat destruct J as [J|J]; try discriminate; contradiction).
  destruct I.
Qed.

(** a path that ends with a part, continued *)
Lemma split_joined a p l : forall n r, part p -> Forall part l -> ~ In (a ++ p) schemes ->
  url_split n (a ++ p) = Ok r -> url_split (List.length l + n) (joined (a ++ p) l) = Ok (r ++ l)%list.
Proof.
  induction l as [|q l IH] using rev_ind; intros n r P PL NS H.
  - cbn. now rewrite app_nil_r.
  - apply Forall_app in PL as [PL Pq]. inversion Pq as [|? ? Q _]; subst.
    rewrite joined_app, app_length. replace (List.length l + List.length [q] + n)%nat with (S (List.length l + n)) by (cbn; lia).
    assert (E : exists b t, joined (a ++ p) l = b ++ t /\ part t /\ ~ In (b ++ t) schemes).
    { destruct l as [|x l _] using rev_ind; [exists a, p; auto|].
      apply Forall_app in PL as [_ PL]. inversion PL; subst.
      exists (joined (a ++ p) l ++ "/"), x. rewrite joined_app, app_s_assoc. split; [reflexivity|].
      split; [assumption|]. intros I. apply (schemes_plain _ I). apply slash_in_app. }
    destruct E as (b & t & E & T & NB). rewrite E. cbn [url_split].
    rewrite path_split_last by assumption. change ["http:"; "https:"; "ftp:"; "s3:"] with schemes.
    rewrite (proj2 (mem_str_false _ _) NB).
    assert (H2 : mem_str (b ++ t) [""; "/"] = false).
    { apply mem_str_false. destruct T as [TN TS]. destruct t as [|c t]; [congruence|].
      intros [I|[I|[]]].
      - destruct b; discriminate.
      - destruct b as [|d b]; cbn in I.
        + injection I as Ec _. apply TS. cbn. now left.
        + injection I as _ I. destruct b; discriminate. }
    rewrite H2, <- E, IH with (r := r) by assumption. cbn. now rewrite app_assoc.
Qed.

(** ** C53: the parts of a joined path come back, for relative and absolute paths
    and behind a scheme and host, unless there are more parts than python
    allows nested calls. *)
Theorem C53_url_split :
  forall first rest limit, part first -> Forall part rest -> (List.length rest < limit)%nat ->
    (~ In first ["http:"; "https:"; "ftp:"; "s3:"] ->
     url_split limit (joined first rest) = Ok (first :: rest)) /\
    url_split limit (joined ("/" ++ first) rest) = Ok (first :: rest) /\
    (forall scheme, In scheme ["http:"; "https:"; "ftp:"; "s3:"] ->
       url_split limit (joined (scheme ++ "//" ++ first) rest) = Ok ((scheme ++ "//" ++ first) :: rest)).
Proof.
  intros first rest limit P PL L. pose proof P as [PN PS].
  replace limit with (List.length rest + (limit - List.length rest)) by lia.
  destruct (limit - List.length rest) as [|n] eqn:En; [lia|]. split; [|split].
  - intros NS. apply (split_joined "" first rest (S n) [first]); auto.
    cbn [url_split append]. rewrite path_split_single by assumption. reflexivity.
  - change ("/" ++ first) with ("/" ++ first). apply (split_joined "/" first rest (S n) [first]); auto.
    + intros I. apply (schemes_plain _ I). cbn. now left.
    + cbn [url_split]. unfold path_split. change ("/" ++ first) with ("" ++ "/" ++ first).
      now rewrite rsplit_join.
  - intros scheme I.
    assert (E : scheme ++ "//" ++ first = (scheme ++ "/") ++ "/" ++ first) by now rewrite app_s_assoc.
    assert (E2 : scheme ++ "//" ++ first = (scheme ++ "//") ++ first) by now rewrite app_s_assoc.
    rewrite E2. apply (split_joined (scheme ++ "//") first rest (S n) [(scheme ++ "//") ++ first]); auto.
    + intros J. apply (schemes_plain _ J). rewrite <- E2, E. apply slash_in_app.
    + rewrite <- E2. cbn [url_split]. unfold path_split. rewrite E, rsplit_join by assumption.
      assert (A : all_slashes ((scheme ++ "/") ++ "/") = false /\ rstrip ((scheme ++ "/") ++ "/") = scheme).
      { cbn in I. repeat destruct I as [<-|I]; [split; reflexivity..|destruct I]. }
      destruct A as [A1 A2]. rewrite A1, A2. now rewrite (proj2 (mem_str_In _ _) I).
Qed.
Print Assumptions C53_url_split.

Example C53_url_split_case :
  url_split 1000 "https://ftp.example.org/pub/tide/m2.nc" = Ok ["https://ftp.example.org"; "pub"; "tide"; "m2.nc"] /\
  url_split 1000 "/pub/tide" = Ok ["pub"; "tide"].
Proof. split; reflexivity. Qed.

(** Finding: a path that starts with two slashes never ends; python raises RecursionError
    whatever its limit. *)
Theorem C53_url_split_double_slash_refuted :
  forall limit p, part p -> url_split limit "//" = Err OtherError /\ url_split limit ("//" ++ p) = Err OtherError.
Proof.
  assert (D : forall limit, url_split limit "//" = Err OtherError).
  { induction limit as [|n IH]; [reflexivity|]. cbn. now rewrite IH. }
  intros limit p [PN PS]. split; [apply D|]. destruct limit as [|n]; [reflexivity|].
  cbn [url_split]. unfold path_split. change ("//" ++ p) with ("/" ++ "/" ++ p). rewrite rsplit_join by assumption.
  cbn. now rewrite D.
Qed.
Print Assumptions C53_url_split_double_slash_refuted.

(** * Argument lines *)
Lemma split_words_word w : forall cur s,
  (forall c, In c (list_ascii_of_string w) -> is_space c = false) ->
  split_words cur (w ++ s) = split_words (cur ++ w) s.
Proof.
  induction w as [|c w IH]; intros cur s H; cbn.
  - f_equal. clear. induction cur; cbn; congruence.
  - rewrite (H c) by (now left). rewrite IH by (intros; apply H; now right).
    now rewrite app_s_assoc.
Qed.
Fixpoint spaced (words : list string) : string :=
  match words with [] => "" | w :: r => w ++ " " ++ spaced r end.
Definition word (w : string) : Prop :=
  w <> "" /\ forall c, In c (list_ascii_of_string w) -> is_space c = false /\ c <> "#"%char.

(** ** C53: the words before the comment, in order. *)
Theorem C53_arguments :
  forall words comment, Forall word words ->
    convert_arg_line (spaced words) = words /\
    convert_arg_line (spaced words ++ "#" ++ comment) = words.
Proof.
  intros words comment F.
  assert (U : forall s tail, (forall c, In c (list_ascii_of_string s) -> c <> "#"%char) ->
    uncomment (s ++ tail) = s ++ uncomment tail).
  { induction s as [|c s IH]; intros tail H; cbn; [reflexivity|].
    destruct (Ascii.eqb c "#") eqn:E; [apply Ascii.eqb_eq in E; exfalso; apply (H c); [now left|assumption]|].
    rewrite IH; [reflexivity|]. intros; apply H; now right. }
  assert (N : forall c, In c (list_ascii_of_string (spaced words)) -> c <> "#"%char).
  { induction F as [|w r [W1 W2] F IH]; cbn; [tauto|]. intros c I.
    assert (L : forall a b, list_ascii_of_string (a ++ b) = (list_ascii_of_string a ++ list_ascii_of_string b)%list)
      by (clear; induction a; cbn; intros; congruence).
    rewrite L in I. apply in_app_iff in I as [I|I]; [now apply W2|]. cbn in I.
    destruct I as [<-|I]; [discriminate|auto]. }
  assert (K : split_words "" (spaced words) = words).
  { clear U N. induction F as [|w r [W1 W2] F IH]; cbn [spaced]; [reflexivity|].
    rewrite split_words_word by (intros c I; now apply W2). cbn. destruct w; [congruence|]. cbn. now rewrite IH. }
  unfold convert_arg_line. split.
  - assert (E : uncomment (spaced words) = spaced words).
    { pose proof (U (spaced words) "" N) as X. cbn in X.
      assert (A : forall a, a ++ "" = a) by (clear; induction a; cbn; congruence). now rewrite !A in X. }
    now rewrite E.
  - rewrite U by assumption. cbn.
    assert (A : forall a, a ++ "" = a) by (clear; induction a; cbn; congruence). now rewrite A.
Qed.
Print Assumptions C53_arguments.

Example C53_arguments_case : convert_arg_line "--model GOT4.10  # ocean tide" = ["--model"; "GOT4.10"].
Proof. reflexivity. Qed.

(** * Roman numerals *)
Lemma roman_loop_value s : forall l p out, mapM roman_map (list_ascii_of_string s) = Ok l ->
  roman_loop (Some p) out s = Ok (out + roman_value (p :: l) - p)%Z.
Proof.
  induction s as [|c s IH]; intros l p out H; cbn in H.
  - injection H as <-. cbn. f_equal. lia.
  - destruct (roman_map c) as [v|] eqn:V; [|discriminate]. cbn in H.
    destruct (mapM roman_map (list_ascii_of_string s)) as [r|] eqn:M; [|discriminate]. cbn in H.
    injection H as <-. cbn [roman_loop]. rewrite V. cbn [bind]. rewrite (IH r) by reflexivity.
    f_equal. cbn [roman_value]. destruct (p <? v)%Z; lia.
Qed.

(** ** C53: the value of any sequence of roman letters in any case: a letter before a
    larger one is subtracted; any other letter is a KeyError. *)
Theorem C53_roman_value :
  forall s,
    (forall l, mapM roman_map (list_ascii_of_string (lower s)) = Ok l -> roman_to_int s = Ok (roman_value l)) /\
    (forall c, In c (list_ascii_of_string (lower s)) ->
       ~ In c ["i"; "v"; "x"; "l"; "c"; "d"; "m"]%char -> roman_to_int s = Err KeyError).
Proof.
  intros s. unfold roman_to_int. split.
  - generalize (lower s) as t. intros [|c t] l H; cbn in H.
    + injection H as <-. reflexivity.
    + destruct (roman_map c) as [v|] eqn:V; [|discriminate]. cbn in H.
      destruct (mapM roman_map (list_ascii_of_string t)) as [r|] eqn:M; [|discriminate]. cbn in H.
      injection H as <-. cbn [roman_loop]. rewrite V. cbn [bind]. rewrite (roman_loop_value t r) by assumption.
      f_equal. lia.
  - intros c I N. revert I. generalize (lower s) as t. generalize (@None Z) as prev. generalize 0%Z as out.
    intros out prev t; revert out prev. induction t as [|d t IH]; cbn; intros out prev I; [destruct I|].
    destruct I as [->|I].
    + assert (K : roman_map c = Err KeyError).
      { unfold roman_map. cbn in N.
        repeat match goal with |- context [Ascii.eqb c ?x] =>
          destruct (Ascii.eqb_spec c x); [subst; exfalso; tauto|] end. reflexivity. }
      now rewrite K.
    + destruct (roman_map d) as [v|e] eqn:V; cbn; [now apply IH|].
      unfold roman_map in V. repeat match type of V with context [Ascii.eqb d ?x] =>
          destruct (Ascii.eqb d x); [discriminate|] end. congruence.
Qed.
Print Assumptions C53_roman_value.

Lemma thousands k l : Forall (fun z => z <= 1000)%Z l ->
  roman_value (repeat 1000%Z k ++ l) = (1000 * Z.of_nat k + roman_value l)%Z.
Proof.
  intros F. induction k as [|k IH]; cbn [repeat app]; [lia|].
  assert (E : roman_value (1000%Z :: repeat 1000%Z k ++ l) = (1000 + roman_value (repeat 1000%Z k ++ l))%Z).
  { cbn [roman_value]. destruct (repeat 1000%Z k ++ l)%list as [|y r] eqn:X; [reflexivity|].
    assert (y <= 1000)%Z.
    { destruct k; cbn in X; [subst; inversion F; assumption|]. injection X as <- _. lia. }
    destruct (Z.ltb_spec 1000 y); [lia|reflexivity]. }
  rewrite E, IH. lia.
Qed.

(** what follows the thousands *)
Definition below (r : nat) : string :=
  digit "c" "d" "m" (r / 100) ++ digit "x" "l" "c" ((r mod 100) / 10) ++ digit "i" "v" "x" (r mod 10).
Lemma below_value : forallb (fun r =>
  match mapM roman_map (list_ascii_of_string (below r)) with
  | Ok l => (roman_value l =? Z.of_nat r)%Z && forallb (fun z => (z <=? 1000)%Z) l
  | Err _ => false
  end) (seq 0 1000) = true.
Proof. vm_compute. reflexivity. Qed.

(** ** C53: the canonical numeral of every natural number, in any case, is turned
    back into the number. *)
Theorem C53_roman_inverse :
  forall n s, lower s = numeral n -> roman_to_int s = Ok (Z.of_nat n).
Proof.
  intros n s E.
  assert (R : (n mod 1000 < 1000)%nat) by (apply Nat.mod_upper_bound; lia).
  pose proof below_value as B. rewrite forallb_forall in B.
  specialize (B (n mod 1000)). rewrite in_seq in B. specialize (B ltac:(lia)).
  destruct (mapM roman_map (list_ascii_of_string (below (n mod 1000)))) as [l|] eqn:ML; [|discriminate].
  apply andb_true_iff in B as [B1 B2]. apply Z.eqb_eq in B1.
  assert (L : forall a b, list_ascii_of_string (a ++ b) = (list_ascii_of_string a ++ list_ascii_of_string b)%list)
      by (clear; induction a; cbn; intros; congruence).
  assert (T : mapM roman_map (list_ascii_of_string (numeral n)) = Ok (repeat 1000%Z (n / 1000) ++ l)%list).
  { unfold numeral. replace (n mod 100) with ((n mod 1000) mod 100).
    - replace (n mod 10) with ((n mod 1000) mod 10).
      + fold (below (n mod 1000)). rewrite L. generalize (n / 1000)%nat as k. intros k. revert ML.
        generalize (list_ascii_of_string (below (n mod 1000))) as t. intros t ML.
        induction k as [|k IH]; [assumption|].
        change (list_ascii_of_string (times (S k) "m")) with ("m"%char :: list_ascii_of_string (times k "m")).
        cbn [app mapM]. rewrite IH. reflexivity.
      + replace 1000%nat with (10 * 100)%nat by reflexivity. rewrite Nat.mod_mul_r by lia.
        rewrite Nat.mul_comm, Nat.mod_add, Nat.mod_mod by lia. reflexivity.
    - replace 1000%nat with (100 * 10)%nat by reflexivity. rewrite Nat.mod_mul_r by lia.
      rewrite Nat.mul_comm, Nat.mod_add, Nat.mod_mod by lia. reflexivity. }
  rewrite <- E in T. destruct (C53_roman_value s) as [H _]. rewrite (H _ T), thousands, B1.
  - f_equal. pose proof (Nat.div_mod n 1000). lia.
  - apply Forall_forall. rewrite forallb_forall in B2. intros z I. apply Z.leb_le. auto.
Qed.
Print Assumptions C53_roman_inverse.

Example C53_roman_case : lower "MCMXCIV" = numeral 1994 /\ roman_to_int "MCMXCIV" = Ok 1994%Z.
Proof. split; reflexivity. Qed.

(** * Rounding *)
Open Scope R_scope.
(** ** C53: even is the largest even integer not above, ceil the least integer not below. *)
Theorem C53_even : forall v : R,
  IZR (even v) <= v /\ Z.Even (even v) /\ (forall n : Z, Z.Even n -> IZR n <= v -> (n <= even v)%Z).
Proof.
  intros v. unfold even. pose proof (rfloor_bounds (v / 2)) as [B1 B2]. split; [|split].
  - rewrite mult_IZR. lra.
  - now exists (rfloor (v / 2)).
  - intros n [k ->] H. rewrite mult_IZR in H. assert (IZR k < IZR (rfloor (v / 2)) + 1) by lra.
    rewrite <- plus_IZR in H0. apply lt_IZR in H0. lia.
Qed.
Print Assumptions C53_even.
Theorem C53_ceil : forall v : R,
  v <= IZR (ceil v) /\ (forall n : Z, v <= IZR n -> (ceil v <= n)%Z).
Proof.
  intros v. unfold ceil. pose proof (rfloor_bounds (- v / 1)) as [B1 B2]. split.
  - rewrite opp_IZR. lra.
  - intros n H. assert (- IZR n < IZR (rfloor (- v / 1)) + 1) by lra.
    rewrite <- opp_IZR, <- plus_IZR in H0. apply lt_IZR in H0. lia.
Qed.
Print Assumptions C53_ceil.

(** * C48 *)
Open Scope nat_scope.
(** ** C48: the type of every request, from the numbers of x, y and t and the number of
    dimensions of x. *)
Theorem C48_classification :
  forall x y t d : nat,
    (data_type x y t d = Ok "time series" <-> x = 1 /\ y = 1 /\ 1 <= t) /\
    (data_type x y t d = Ok "drift" <-> x = y /\ y = t /\ x <> 1) /\
    (data_type x y t d = Ok "grid" <-> x <> y \/ (x = y /\ x <> t /\ 1 < d /\ ~ (x = 1 /\ 1 <= t))) /\
    (data_type x y t d = Err ValueError <-> x = y /\ x <> t /\ d <= 1 /\ ~ (x = 1 /\ 1 <= t)) /\
    (forall e, data_type x y t d = Err e -> e = ValueError) /\
    (forall r, data_type x y t d = Ok r -> In r ["time series"; "drift"; "grid"]).
Proof.
  intros x y t d. unfold data_type.
  destruct (Nat.eqb_spec x 1), (Nat.eqb_spec y 1), (Nat.leb_spec 1 t), (Nat.eqb_spec x y),
    (Nat.eqb_spec x t), (Nat.ltb_spec 1 d); cbn [andb negb]; try (exfalso; lia);
  (split; [|split; [|split; [|split; [|split]]]]);
  try (split; [intros H'; try discriminate H'; lia | intros H'; try reflexivity; exfalso; lia]);
  try (intros e H'; congruence); try (intros r H'; injection H' as <-; cbn; tauto);
  intros r H'; discriminate H'.
Qed.
Print Assumptions C48_classification.

Example C48_cases :
  data_type 1 1 8760 1 = Ok "time series" /\ data_type 50 50 50 1 = Ok "drift" /\
  data_type 50 40 12 1 = Ok "grid" /\ data_type 2000 2000 12 2 = Ok "grid" /\
  data_type 50 50 12 1 = Err ValueError.
Proof. repeat split; reflexivity. Qed.

(** Finding: a mesh of coordinates with as many nodes as there are times is taken for a
    drift track, whatever its number of dimensions; a square grid given by its axes is
    rejected, or taken for a drift track when it has as many times as rows. *)
Theorem C48_mesh_refuted :
  forall n d, n <> 1 -> data_type n n n d = Ok "drift" /\
    (forall t, n <> t -> d <= 1 -> data_type n n t d = Err ValueError).
Proof.
  intros n d N. split.
  - apply C48_classification. auto.
  - intros t T D. apply C48_classification. intuition lia.
Qed.
Print Assumptions C48_mesh_refuted.
