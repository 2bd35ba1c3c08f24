(** C74: columns of text written and read back. *)
From Coq Require Import List Bool Arith ZArith String Ascii Lia.
From Verif Require Import PyBase CsvModel CsvSpec CsvProps CsvProps2.
Import ListNotations.
Local Open Scope char_scope.

Lemma nth_ext' {X} (l l' : list X) : List.length l = List.length l' -> (forall k a b, nth_error l k = Some a -> nth_error l' k = Some b -> a = b) -> l = l'.
Proof. revert l'. induction l as [|a l IH]; intros [|b l'] HL H; try discriminate; [reflexivity|]. f_equal; [now apply (H 0%nat)|]. apply IH; [now inversion HL|]. intros k x y. apply (H (S k)). Qed.
Lemma join_parted d c l : l <> [] -> Forall (carries d c) l -> parted d (join c l) l.
Proof.
  destruct l as [|a l]; [congruence|]. intros _ H. unfold join. destruct d as [c'|].
  - constructor. revert a H. induction l as [|b l IH]; intros a H; cbn [flat_map].
    + rewrite app_nil_r. inversion H as [|? ? [_ [-> Ha]] _]. now constructor.
    + inversion H as [|? ? [_ [-> Ha]] H2]; subst. cbn [app]. constructor; [exact Ha|]. apply IH. exact H2.
  - constructor. revert a H. induction l as [|b l IH]; intros a H; cbn [flat_map].
    + rewrite app_nil_r. inversion H as [|? ? [_ [_ Ha]] _]. apply (Final [] a); [constructor|exact Ha].
    + inversion H as [|? ? [_ [Hc Ha]] H2]; subst. cbn [app]. apply (Next [] a c _ _ Gap_none Ha Hc). apply IH. exact H2.
Qed.
Lemma join_clear x c l : c <> x -> Forall (clear x) l -> clear x (join c l).
Proof.
  intros N H. destruct l as [|a l]; [now intros []|]. unfold join. inversion H as [|? ? Ha Hl]; subst. intros K. apply in_app_or in K as [K|K]; [now apply Ha|]. apply in_flat_map in K as (t & Ht & K). destruct K as [K|K]; [congruence|]. rewrite Forall_forall in Hl. exact (Hl t Ht K).
Qed.
Lemma lines_lines t l : lines_of t l -> Forall (clear newline) l.
Proof. induction 1; constructor; auto. Qed.

(** ** Texts of a header *)
Lemma plain_app a b : plain a -> plain b -> plain (a ++ b).
Proof. intros [H1 H2] [H3 H4]. split; intros K; apply in_app_or in K as [K|K]; contradiction. Qed.
Lemma plain_blanks n : plain (repeat " " n).
Proof. split; intros K; apply repeat_spec in K; discriminate. Qed.
Lemma plain_wide n s : plain (list_ascii_of_string s) -> plain (wide n s).
Proof. intros H. apply plain_app; [exact H|apply plain_blanks]. Qed.
Definition plain_b (t : text) : bool := forallb (fun a => negb (Ascii.eqb a newline) && negb (Ascii.eqb a "#")) t.
Lemma plain_of t : plain_b t = true -> plain t.
Proof. intros H. unfold plain_b in H. rewrite forallb_forall in H. split; intros K; apply H in K; rewrite Ascii.eqb_refl in K; [discriminate|]. rewrite andb_false_r in K. discriminate. Qed.
Lemma plain_of_clear t : forallb (fun a => negb (Ascii.eqb a newline)) t = true -> clear newline t.
Proof. intros H K. rewrite forallb_forall in H. apply H in K. rewrite Ascii.eqb_refl in K. discriminate. Qed.
Definition headed (t : text) : Prop := exists ls, lines_of t ls /\ Forall plain ls.
Lemma headed_app a b : headed a -> headed b -> headed (a ++ b).
Proof. intros (la & A1 & A2) (lb & B1 & B2). exists (la ++ lb)%list. split; [now apply lines_app|]. apply Forall_app. now split. Qed.
Lemma headed_line a : plain a -> headed (ended a).
Proof. intros H. exists [a]. split; [apply lines_one; apply H|constructor; [exact H|constructor]]. Qed.
Lemma headed_blank b : headed b -> headed (newline :: b).
Proof. intros (l & H1 & H2). exists ([] :: l). split; [now apply lines_cons0|]. constructor; [apply plain_of; reflexivity|exact H2]. Qed.
Lemma headed_nil : headed [].
Proof. exists []. split; constructor. Qed.
Lemma headed_flat {B} (f : B -> text) l : (forall b, In b l -> headed (f b)) -> headed (flat_map f l).
Proof. induction l as [|b l IH]; intros H; [apply headed_nil|]. cbn [flat_map]. apply headed_app; [apply H; now left|]. apply IH. intros; apply H; now right. Qed.
Definition finished (t : text) : Prop := exists t0, t = (t0 ++ ended marker)%list /\ headed t0.
Lemma finished_app a b : headed a -> finished b -> finished (a ++ b).
Proof. intros Ha (t0 & -> & H0). exists (a ++ t0)%list. split; [apply app_assoc|now apply headed_app]. Qed.
Lemma finished_line a b : plain a -> finished b -> finished (ended a ++ b).
Proof. intros Ha. apply finished_app. now apply headed_line. Qed.
Lemma finished_blank b : finished b -> finished (newline :: b).
Proof. intros (t0 & -> & H0). exists (newline :: t0). split; [reflexivity|now apply headed_blank]. Qed.
Lemma finished_end : finished (ended marker).
Proof. exists []. split; [reflexivity|apply headed_nil]. Qed.
Lemma headed_vars decimal columns attributes : (forall k, plain (decimal k)) -> (forall name, In name columns -> plain (list_ascii_of_string name)) ->
  (forall name key t, In name columns -> In (key, t) (attributes name) -> plain (list_ascii_of_string key) /\ plain t) ->
  headed (flat_map (fun iv : nat * string => ended (lit "    " ++ wide 22 (snd iv) ++ lit ":") ++
       flat_map (fun kv => ended (lit "      " ++ wide 20 (fst kv) ++ lit ": " ++ snd kv)) (attributes (snd iv)) ++
       ended (lit "      " ++ wide 20 "precision" ++ lit ": double_precision") ++
       ended (lit "      " ++ wide 20 "comment" ++ lit ": column " ++ decimal (S (fst iv)))) (combine (seq 0 (List.length columns)) columns)).
Proof.
  intros Hd Hn Ha. apply headed_flat. intros [i name] Hi. apply in_combine_r in Hi. cbn [fst snd]. apply headed_app; [apply headed_line|apply headed_app; [|apply headed_app; apply headed_line]].
  - apply plain_app; [apply plain_of; reflexivity|]. apply plain_app; [|apply plain_of; reflexivity]. apply plain_wide. now apply Hn.
  - apply headed_flat. intros [key t] Hk. destruct (Ha name key t Hi Hk) as [K1 K2]. apply headed_line. cbn [fst snd]. apply plain_app; [apply plain_of; reflexivity|]. apply plain_app; [now apply plain_wide|]. apply plain_app; [apply plain_of; reflexivity|exact K2].
  - apply plain_of. reflexivity.
  - apply plain_app; [apply plain_of; reflexivity|]. apply plain_app; [apply plain_of; reflexivity|]. apply plain_app; [apply plain_of; reflexivity|apply Hd].
Qed.
Lemma headed_header today decimal columns attributes nrow : plain today -> (forall k, plain (decimal k)) -> (forall name, In name columns -> plain (list_ascii_of_string name)) ->
  (forall name key t, In name columns -> In (key, t) (attributes name) -> plain (list_ascii_of_string key) /\ plain t) ->
  finished (header_text today decimal columns attributes nrow).
Proof.
  intros Ht Hd Hn Ha. unfold header_text. pose proof (headed_vars decimal columns attributes Hd Hn Ha) as HV.
  apply finished_line; [apply plain_of; reflexivity|]. apply finished_blank. apply finished_line; [apply plain_of; reflexivity|].
  apply finished_line. { apply plain_app; [apply plain_of; reflexivity|]. apply plain_app; [apply plain_of; reflexivity|]. apply plain_app; [apply plain_of; reflexivity|apply Hd]. }
  apply finished_line; [apply plain_of; reflexivity|].
  apply finished_line. { apply plain_app; [apply plain_of; reflexivity|]. apply plain_app; [apply plain_of; reflexivity|]. apply plain_app; [apply plain_of; reflexivity|]. apply plain_app; [apply Hd|apply plain_of; reflexivity]. }
  apply finished_blank, finished_blank. apply finished_line; [apply plain_of; reflexivity|].
  apply finished_line. { apply plain_app; [apply plain_of; reflexivity|]. apply plain_app; [apply plain_of; reflexivity|]. apply plain_app; [apply plain_of; reflexivity|exact Ht]. }
  apply finished_blank. apply finished_line; [apply plain_of; reflexivity|]. apply finished_app; [exact HV|]. apply finished_blank, finished_blank, finished_end.
Qed.
Lemma plain_closes l : plain l -> ~ closes l.
Proof. intros [_ H] (a & b & ->). apply H. apply in_or_app. right. apply in_or_app. left. now left. Qed.

Section Both.
Context {A : Type} (num date : text -> option A) (show : A -> text) (yaml : list text -> res (list (string * option text))).
(** the line of texts of row [i] *)
Lemma row_texts (stack : list (list A)) n i : (forall l, In l stack -> List.length l = n) -> (i < n)%nat ->
  let texts := flat_map (fun l => match nth_error l i with Some a => [show a] | None => [] end) stack in
  List.length texts = List.length stack /\ (forall t, In t texts -> exists l a, In l stack /\ In a l /\ t = show a) /\
  forall k l a, nth_error stack k = Some l -> nth_error l i = Some a -> nth_error texts k = Some (show a).
Proof.
  intros HL Hi. cbv zeta. induction stack as [|l stack IH]; [split; [reflexivity|split; [now intros t []|intros [|k] l a; discriminate]]|].
  destruct IH as (I1 & I2 & I3); [intros; apply HL; now right|]. cbn [flat_map]. pose proof (HL l (or_introl eq_refl)) as Hl. destruct (nth_error l i) as [a|] eqn:E; [|apply nth_error_None in E; lia]. cbn [app List.length]. split; [now rewrite I1|]. split.
  - intros t [<-|K]; [exists l, a; split; [now left|split; [eapply nth_error_In; eauto|reflexivity]]|]. destruct (I2 t K) as (l' & a' & H1 & H2). exists l', a'. split; [now right|exact H2].
  - intros [|k] l' a'; cbn; [intros [=<-] E2; congruence|apply I3].
Qed.
Definition body_of (c : ascii) (stack : list (list A)) (n : nat) : list text :=
  map (fun k => join c (flat_map (fun l => match nth_error l k with Some a => [show a] | None => [] end) stack)) (seq 0 n).
Lemma stack_found (output : list (string * list (A * bool))) columns vals : NoDup (map fst output) ->
  Forall2 (fun c l => exists cells, In (c, cells) output /\ map fst cells = l) columns vals ->
  mapM (fun c => match find c output with Some l => Ok (map fst l) | None => Err KeyError end) columns = Ok vals.
Proof. intros ND H. apply mapM_ok2. induction H as [|c l cs ls (cells & Hc & E) _ IH]; constructor; [|exact IH]. rewrite (find_in output c cells ND Hc). now rewrite E. Qed.
Lemma lengths_ok (vals : list (list A)) n first rest : vals = first :: rest -> (forall l, In l vals -> List.length l = n) -> List.length first = n /\ forallb (fun l => (List.length l =? List.length first)%nat) vals = true.
Proof. intros E H. assert (F : List.length first = n) by (apply H; rewrite E; now left). split; [exact F|]. apply forallb_forall. intros l Hl. apply Nat.eqb_eq. rewrite F. now apply H. Qed.

Lemma body_rows d c dates columns vals n : columns <> [] -> List.length vals = List.length columns -> (forall l, In l vals -> List.length l = n) -> c <> newline -> kept num date show d c dates columns vals ->
  lines_of (flat_map (fun k => ended (join c (flat_map (fun l => match nth_error l k with Some a => [show a] | None => [] end) vals))) (seq 0 n)) (body_of c vals n) /\
  exists rows, Forall2 (parted d) (body_of c vals n) rows /\ Forall (readable num date dates columns) rows /\
    forall cols, tabulated num date dates columns rows cols -> cols = vals.
Proof.
  intros HC HV HL Hc HK. set (T := fun i => flat_map (fun l => match nth_error l i with Some a => [show a] | None => [] end) vals).
  assert (HT : forall i, (i < n)%nat -> List.length (T i) = List.length columns /\ (forall t, In t (T i) -> carries d c t) /\
     (forall k name l a, nth_error columns k = Some name -> nth_error vals k = Some l -> nth_error l i = Some a -> nth_error (T i) k = Some (show a) /\ reading num date dates name (show a) = Some a)).
  { intros i Hi. destruct (row_texts vals n i HL Hi) as (T1 & T2 & T3). fold (T i) in T1, T2, T3. split; [lia|]. split.
    - intros t Ht. destruct (T2 t Ht) as (l & a & Hl & Ha & ->). apply In_nth_error in Hl as [k Ek]. assert (k < List.length vals)%nat by (apply nth_error_Some; congruence). destruct (nth_error columns k) as [name|] eqn:En; [|apply nth_error_None in En; lia]. exact (proj2 (HK k name l a En Ek Ha)).
    - intros k name l a En El Ea. split; [now apply (T3 k l)|]. exact (proj1 (HK k name l a En El (nth_error_In _ _ Ea))). }
  split; [|exists (map T (seq 0 n)); split; [|split]].
  - unfold body_of. fold T.
    assert (G : forall s, (forall i, In i s -> (i < n)%nat) -> lines_of (flat_map (fun k => ended (join c (T k))) s) (map (fun k => join c (T k)) s)).
    { induction s as [|i s IH]; intros Hs; [constructor|]. cbn [flat_map map]. apply lines_cons; [|apply IH; intros; apply Hs; now right]. apply join_clear; [exact Hc|]. apply Forall_forall. intros t Ht. exact (proj1 (proj1 (proj2 (HT i (Hs i (or_introl eq_refl)))) t Ht)). }
    apply G. intros i Hi. apply in_seq in Hi. lia.
  - unfold body_of. fold T. assert (G : forall s, (forall i, In i s -> (i < n)%nat) -> Forall2 (parted d) (map (fun k => join c (T k)) s) (map T s)).
    { induction s as [|i s IH]; intros Hs; [constructor|]. cbn [map]. destruct (HT i (Hs i (or_introl eq_refl))) as (T1 & T2 & _). constructor; [|apply IH; intros; apply Hs; now right]. apply join_parted; [|now apply Forall_forall]. intros K. rewrite K in T1. destruct columns; [congruence|discriminate]. }
    apply G. intros i Hi. apply in_seq in Hi. lia.
  - apply Forall_forall. intros row Hr. apply in_map_iff in Hr as (i & <- & Hi). apply in_seq in Hi. destruct (HT i ltac:(lia)) as (T1 & _ & T3). split; [lia|]. intros k name t En Et. assert (k < List.length columns)%nat by (apply nth_error_Some; congruence). destruct (nth_error vals k) as [l|] eqn:El; [|apply nth_error_None in El; lia].
    pose proof (HL l (nth_error_In _ _ El)). destruct (nth_error l i) as [a|] eqn:Ea; [|apply nth_error_None in Ea; lia]. destruct (T3 k name l a En El Ea) as [E1 E2]. assert (t = show a) by congruence. subst t. congruence.
  - intros cols [CL CN]. apply nth_ext'; [lia|]. intros k col l Ek El. assert (k < List.length columns)%nat by (rewrite <- HV; apply nth_error_Some; congruence). destruct (nth_error columns k) as [name|] eqn:En; [|apply nth_error_None in En; lia].
    destruct (CN k name En) as (col' & Ec & Cl & Ci). assert (col' = col) by congruence. subst col'. rewrite map_length, seq_length in Cl. pose proof (HL l (nth_error_In _ _ El)) as Ll. apply nth_ext'; [lia|]. intros i a b Ea Eb. assert (Hi : (i < n)%nat) by (rewrite <- Ll; apply nth_error_Some; congruence). destruct (HT i Hi) as (_ & _ & T3). destruct (T3 k name l b En El Eb) as [E1 E2].
    assert (Er : nth_error (map T (seq 0 n)) i = Some (T i)) by (rewrite nth_error_map, seq_nth by auto; reflexivity).
    destruct (Ci i (T i) (show b) Er E1) as (a' & E3 & E4). congruence.
Qed.

(** ** Columns written without a header are read back, whatever their masks *)
Theorem C74_round_trip today decimal output attributes columns vals n d c dates : NoDup (map fst output) -> NoDup columns -> columns <> [] ->
  Forall2 (fun name l => exists cells, In (name, cells) output /\ map fst cells = l) columns vals -> (forall l, In l vals -> List.length l = n) -> c <> newline -> kept num date show d c dates columns vals ->
  exists file, to_ascii show today decimal output attributes c columns false = Ok file /\ from_ascii num date yaml file columns d (Skip 0) dates = Ok vals.
Proof.
  intros NO ND HC HO HL Hc HK. assert (HV : List.length vals = List.length columns) by (symmetry; now apply (forall2_nth _ _ _ HO)).
  destruct (body_rows d c dates columns vals n HC HV HL Hc HK) as (B1 & rows & B2 & B3 & B4).
  unfold to_ascii. rewrite (stack_found output columns vals NO HO). cbn [bind]. destruct vals as [|first rest] eqn:Ev; [destruct columns; [congruence|discriminate]|]. rewrite <- Ev in *.
  destruct (lengths_ok vals n first rest Ev HL) as [L1 L2]. rewrite L2, L1. cbn [negb bind app]. eexists. split; [reflexivity|].
  destruct (C74_read num date yaml _ _ rows columns d 0 dates B1 ND ltac:(lia) B2) as [R _]. destruct (R B3) as (cols & E & HT). rewrite E. now rewrite (B4 cols HT).
Qed.
(** ** With a header, whose end is found where it was written *)
Theorem C74_round_trip_header today decimal output attributes columns vals n d c dates : NoDup (map fst output) -> NoDup columns -> columns <> [] ->
  Forall2 (fun name l => exists cells, In (name, cells) output /\ map fst cells = l) columns vals -> (forall l, In l vals -> List.length l = n) -> c <> newline -> kept num date show d c dates columns vals ->
  NoDup (map fst attributes) -> (forall name, In name columns -> exists a, In (name, a) attributes) ->
  plain today -> (forall k, plain (decimal k)) -> (forall name, In name columns -> plain (list_ascii_of_string name)) ->
  (forall name a key t, In name columns -> In (name, a) attributes -> In (key, t) a -> plain (list_ascii_of_string key) /\ plain t) ->
  exists file hd m body, to_ascii show today decimal output attributes c columns true = Ok file /\ lines_of file (hd ++ m :: body) /\
    Forall (fun l => ~ closes l) hd /\ closes m /\ List.length body = n /\
    forall vars, yaml (hd ++ [m]) = Ok vars -> NoDup (map fst vars) -> (forall name, In name columns -> exists f, In (name, f) vars) ->
      ((forall f, In "data"%string columns -> In ("data"%string, f) vars -> f = None) -> from_ascii num date yaml file columns d Yaml dates = Ok vals) /\
      (forall f, In "data"%string columns -> In ("data"%string, Some f) vars -> from_ascii num date yaml file columns d Yaml dates = Err TypeError).
Proof.
  intros NO ND HC HO HL Hc HK NA HA Ht Hd Hn Hp. assert (HV : List.length vals = List.length columns) by (symmetry; now apply (forall2_nth _ _ _ HO)).
  destruct (body_rows d c dates columns vals n HC HV HL Hc HK) as (B1 & rows & B2 & B3 & B4).
  unfold to_ascii. rewrite (stack_found output columns vals NO HO). cbn [bind]. destruct vals as [|first rest] eqn:Ev; [destruct columns; [congruence|discriminate]|]. rewrite <- Ev in *.
  destruct (lengths_ok vals n first rest Ev HL) as [L1 L2]. rewrite L2, L1. cbn [negb].
  assert (EA : exists l, mapM (fun c0 => match find c0 attributes with Some a => Ok a | None => Err KeyError end) columns = Ok l).
  { destruct (forall2_ex (fun name a => (match find name attributes with Some a => Ok a | None => Err KeyError end) = Ok a) columns) as [l Hl]; [|exists l; now apply mapM_ok2]. intros k name Ek. destruct (HA name (nth_error_In _ _ Ek)) as [a Ha]. exists a. now rewrite (find_in attributes name a NA Ha). }
  destruct EA as [la EA]. rewrite EA. cbn [bind].
  destruct (headed_header today decimal columns (fun c0 => match find c0 attributes with Some a => a | None => [] end) n Ht Hd Hn) as (t0 & Eh & hd & Hl & Hpl).
  { intros name key t Hin Hk. destruct (HA name Hin) as [a Ha]. rewrite (find_in attributes name a NA Ha) in Hk. exact (Hp name a key t Hin Ha Hk). }
  rewrite Eh. assert (HF : lines_of ((t0 ++ ended marker) ++ flat_map (fun k => ended (join c (flat_map (fun l => match nth_error l k with Some a => [show a] | None => [] end) vals))) (seq 0 n)) (hd ++ marker :: body_of c vals n)).
  { rewrite <- app_assoc. apply lines_app; [exact Hl|]. apply lines_cons; [|exact B1]. apply (plain_of_clear marker). reflexivity. }
  assert (Hcl : closes marker) by (exists [], []; reflexivity).
  assert (Hno : Forall (fun l => ~ closes l) hd) by (eapply Forall_impl; [|exact Hpl]; exact plain_closes).
  do 4 eexists. split; [reflexivity|]. split; [exact HF|]. split; [exact Hno|]. split; [exact Hcl|]. split; [unfold body_of; now rewrite map_length, seq_length|].
  intros vars Ey NV Hv. destruct (C74_header num date yaml _ _ _ _ rows vars columns d dates HF Hno Hcl Ey NV Hv ND B2) as (R1 & R2 & _). split.
  - intros Hnone. destruct (R1 Hnone B3) as (cols & E & HT). rewrite E. now rewrite (B4 cols HT).
  - intros f Hdt Hf. exact (R2 f Hdt Hf B3).
Qed.
End Both.
Print Assumptions C74_round_trip.
Print Assumptions C74_round_trip_header.
