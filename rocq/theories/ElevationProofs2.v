(** Lemmas for C78: prediction is linear in the constants. *)
From Coq Require Import String Reals Lra Lia List Bool ZArith Arith.
From Verif Require Import PyBase RBase ExtractSpec ElevationSpec.
Import ListNotations.
Open Scope R_scope.
Open Scope list_scope.

(** k times the constant z as amplitude and phase *)
Definition derived (k : R) (z out : option (R * R)) : Prop :=
  match z with None => out = None | Some z => exists a p, amplitude_phase z a p /\ out = Some (k * a, p) end.
Lemma cosines_height f u k names zs row : Forall2 (derived k) zs row ->
  cosines f u names row = option_map (Rmult k) (height f u names zs).
Proof.
  intros F. revert names. induction F as [|z r zs row D F IH]; intros [|c names]; cbn [cosines height]; [cbn; f_equal; ring|reflexivity| |].
  - destruct z as [z|]; destruct r as [[? ?]|]; reflexivity.
  - destruct z as [z|]; cbn in D; [|subst r; reflexivity]. destruct D as (a & p & (A1 & A2 & A3 & A4) & ->).
    rewrite IH. destruct (height f u names zs) as [h|]; [|reflexivity]. cbn [option_map]. f_equal. unfold rise. rewrite A3, A4, cos_minus. ring.
Qed.

Lemma nth_tabled {X} (F : nat -> X) n i d : (i < n)%nat -> nth i (map F (seq 0 n)) d = F i.
Proof. intros H. rewrite (nth_indep _ d (F 0%nat)) by (rewrite map_length, seq_length; lia). rewrite map_nth, seq_nth by lia. reflexivity. Qed.

Section Linear.
  Variables f u : string -> R.
  Definition val (o : option (R * R)) : R * R := match o with Some z => z | None => (0, 0) end.
  Fixpoint raised (names : list string) (Z : nat -> R * R) : R :=
    match names with [] => 0 | c :: names => rise (f c) (u c) (Z 0%nat) + raised names (fun i => Z (S i)) end.
  Lemma raised_ext names : forall Z Z', (forall i, (i < List.length names)%nat -> Z i = Z' i) -> raised names Z = raised names Z'.
  Proof.
    induction names as [|c names IH]; intros Z Z' H; [reflexivity|]. cbn [raised]. rewrite (H 0%nat) by (cbn; lia). f_equal. apply IH. intros i Hi. apply H. cbn. lia.
  Qed.
  Lemma raised_zero names : raised names (fun _ => (0, 0)) = 0.
  Proof. induction names as [|c names IH]; [reflexivity|]. cbn [raised]. rewrite IH. unfold rise. cbn [fst snd]. ring. Qed.
  Lemma raised_linear names : forall k Z Z', raised names (fun i => (k * fst (Z i) + fst (Z' i), k * snd (Z i) + snd (Z' i))) = k * raised names Z + raised names Z'.
  Proof.
    induction names as [|c names IH]; intros k Z Z'; [cbn; ring|]. cbn [raised].
    rewrite (IH k (fun i => Z (S i)) (fun i => Z' (S i))). unfold rise. cbn [fst snd]. ring.
  Qed.
  Lemma raised_scale names k Z : raised names (fun i => (k * fst (Z i), k * snd (Z i))) = k * raised names Z.
  Proof.
    rewrite <- (Rplus_0_r (k * _)), <- (raised_zero names), <- raised_linear. apply raised_ext. intros. cbn [fst snd]. f_equal; ring.
  Qed.
  Lemma height_raised names : forall zs, List.length zs = List.length names -> (forall z, In z zs -> z <> None) ->
    height f u names zs = Some (raised names (fun i => val (nth i zs None))).
  Proof.
    induction names as [|c names IH]; intros [|[z|] zs] E H; try discriminate; [reflexivity| |destruct (H None); [now left|reflexivity]].
    cbn [height raised nth val]. rewrite IH; [reflexivity|now injection E|intros z' I; apply H; now right].
  Qed.
  Lemma height_some names : forall zs, List.length zs = List.length names -> height f u names zs <> None -> forall z, In z zs -> z <> None.
  Proof.
    induction names as [|c names IH]; intros [|[z|] zs] E H z' I; try discriminate; [destruct I| |destruct H; reflexivity].
    destruct I as [<-|I]; [discriminate|]. apply (IH zs); auto. cbn in H. destruct (height f u names zs); [discriminate|destruct H; reflexivity].
  Qed.

  (** nodes with a weight each *)
  Definition part_of (c : nat) (L : list (R * list (option (R * R)))) : list (R * option (R * R)) := map (fun q => (fst q, nth c (snd q) None)) L.
  Definition whole (names : list string) (L : list (R * list (option (R * R)))) : list (R * option R) := map (fun q => (fst q, height f u names (snd q))) L.
  Definition full (names : list string) (L : list (R * list (option (R * R)))) : Prop :=
    forall q, In q L -> all_or_none (snd q) /\ List.length (snd q) = List.length names.
  Definition weigh (names : list string) (q : R * list (option (R * R))) : R := match height f u names (snd q) with Some _ => fst q | None => 0 end.
  Lemma weight_whole names L : weight (whole names L) = fold_right Rplus 0 (map (weigh names) L).
  Proof. unfold weight, whole. rewrite map_map. reflexivity. Qed.
  Lemma weight_part {V} (g : V -> R) l : weight (part g l) = weight l.
  Proof. unfold weight, part. rewrite map_map. f_equal. apply map_ext. intros [w [v|]]; reflexivity. Qed.
  Lemma present names q c : all_or_none (snd q) -> List.length (snd q) = List.length names -> (c < List.length names)%nat ->
    (match nth c (snd q) None with Some _ => fst q | None => 0 end) = weigh names q.
  Proof.
    intros [H|H] E Hc; unfold weigh.
    - rewrite (height_raised _ _ E H). destruct (nth c (snd q) None) eqn:En; [reflexivity|]. destruct (H None); [|reflexivity]. rewrite <- En. apply nth_In. lia.
    - rewrite (H (nth c (snd q) None)) by (apply nth_In; lia). destruct (height f u names (snd q)) eqn:Eh; [|reflexivity]. exfalso.
      assert (N : height f u names (snd q) <> None) by congruence. apply (height_some _ _ E N (nth c (snd q) None)); [apply nth_In; lia|]. apply H, nth_In. lia.
  Qed.
  Lemma weight_column names L c : full names L -> (c < List.length names)%nat -> weight (part_of c L) = weight (whole names L).
  Proof.
    intros F Hc. rewrite weight_whole. unfold weight, part_of. rewrite map_map. cbn [fst snd]. f_equal. apply map_ext_in. intros q I. destruct (F q I). now apply present.
  Qed.
  Lemma total_column (g : R * R -> R) names L c : g (0, 0) = 0 -> full names L -> (c < List.length names)%nat ->
    total (part g (part_of c L)) = fold_right Rplus 0 (map (fun q => weigh names q * g (val (nth c (snd q) None))) L).
  Proof.
    intros G F Hc. unfold total, part, part_of. rewrite !map_map. cbn [fst snd]. f_equal. apply map_ext_in. intros q I. destruct (F q I) as [F1 F2].
    rewrite <- (present names q c F1 F2 Hc). destruct (nth c (snd q) None); cbn [option_map val]; [reflexivity|]. rewrite G. ring.
  Qed.
  Lemma total_whole names L : full names L -> total (whole names L) = fold_right Rplus 0 (map (fun q => weigh names q * raised names (fun i => val (nth i (snd q) None))) L).
  Proof.
    intros F. unfold total, whole. rewrite map_map. cbn [fst snd]. f_equal. apply map_ext_in. intros q I. destruct (F q I) as [_ F2]. unfold weigh.
    destruct (height f u names (snd q)) eqn:E; [|ring]. assert (N : height f u names (snd q) <> None) by congruence.
    rewrite (height_raised names (snd q) F2 (height_some _ _ F2 N)) in E. injection E as <-. ring.
  Qed.
  Lemma exchange names L : raised names (fun c => (fold_right Rplus 0 (map (fun q => weigh names q * fst (val (nth c (snd q) None))) L),
                                                  fold_right Rplus 0 (map (fun q => weigh names q * snd (val (nth c (snd q) None))) L)))
    = fold_right Rplus 0 (map (fun q => weigh names q * raised names (fun i => val (nth i (snd q) None))) L).
  Proof.
    assert (G : forall W : R * list (option (R * R)) -> R, raised names (fun c => (fold_right Rplus 0 (map (fun q => W q * fst (val (nth c (snd q) None))) L),
                                                  fold_right Rplus 0 (map (fun q => W q * snd (val (nth c (snd q) None))) L)))
      = fold_right Rplus 0 (map (fun q => W q * raised names (fun i => val (nth i (snd q) None))) L)); [|apply G].
    intros W. induction L as [|q L IH]; [apply raised_zero|]. cbn [map fold_right]. rewrite <- IH.
    apply (raised_linear names (W q) (fun i => val (nth i (snd q) None))
      (fun c => (fold_right Rplus 0 (map (fun q => W q * fst (val (nth c (snd q) None))) L), fold_right Rplus 0 (map (fun q => W q * snd (val (nth c (snd q) None))) L)))).
  Qed.

  (** the height of the mean constants is the mean of the heights *)
  Lemma height_mean names L : names <> [] -> full names L ->
    height f u names (map (fun c => both (mean (part fst (part_of c L))) (mean (part snd (part_of c L)))) (seq 0 (List.length names)))
    = mean (whole names L).
  Proof.
    intros N F. unfold mean at 3. destruct (Req_EM_T (weight (whole names L)) 0) as [W|W].
    - destruct names as [|c names]; [congruence|]. cbn [List.length seq map height]. unfold mean. rewrite !weight_part, (weight_column (c :: names) L 0 F) by (cbn; lia).
      destruct (Req_EM_T _ 0); [reflexivity|congruence].
    - assert (Hc : forall c, (c < List.length names)%nat -> both (mean (part fst (part_of c L))) (mean (part snd (part_of c L)))
        = Some (total (part fst (part_of c L)) / weight (whole names L), total (part snd (part_of c L)) / weight (whole names L))).
      { intros c Hc. unfold mean. rewrite !weight_part, (weight_column names L c F Hc). destruct (Req_EM_T _ 0); [contradiction|reflexivity]. }
      rewrite height_raised.
      + f_equal. rewrite (raised_ext names _ (fun c => (/ weight (whole names L) * fst (fold_right Rplus 0 (map (fun q => weigh names q * fst (val (nth c (snd q) None))) L),
                                                  fold_right Rplus 0 (map (fun q => weigh names q * snd (val (nth c (snd q) None))) L)),
              / weight (whole names L) * snd (fold_right Rplus 0 (map (fun q => weigh names q * fst (val (nth c (snd q) None))) L),
                                                  fold_right Rplus 0 (map (fun q => weigh names q * snd (val (nth c (snd q) None))) L))))).
        * rewrite (raised_scale names _ (fun c => (fold_right Rplus 0 (map (fun q => weigh names q * fst (val (nth c (snd q) None))) L),
                                                  fold_right Rplus 0 (map (fun q => weigh names q * snd (val (nth c (snd q) None))) L)))), exchange, (total_whole names L F). unfold Rdiv. ring.
        * intros i Hi. rewrite (nth_tabled (fun c => both (mean (part fst (part_of c L))) (mean (part snd (part_of c L))))) by lia.
          rewrite Hc by lia. cbn [val fst snd].
          rewrite (total_column fst names L i), (total_column snd names L i) by auto. f_equal; unfold Rdiv; ring.
      + now rewrite map_length, seq_length.
      + intros z I. apply in_map_iff in I as (c & <- & I). apply in_seq in I. rewrite Hc by lia. discriminate.
  Qed.
End Linear.
