(** C74: what is read from columns of text. *)
From Coq Require Import List Bool Arith ZArith String Ascii Lia.
From Verif Require Import PyBase CsvModel CsvSpec CsvProps.
Import ListNotations.
Local Open Scope char_scope.

Lemma mapM_ok2 {X Y} (f : X -> res Y) l l' : mapM f l = Ok l' <-> Forall2 (fun a b => f a = Ok b) l l'.
Proof.
  revert l'. induction l as [|a l IH]; intros l'; cbn.
  - split; [intros [=<-]; constructor|intros H; inversion H; reflexivity].
  - destruct (f a) as [b|e] eqn:E; cbn; [|split; [discriminate|intros H; inversion H; congruence]].
    destruct (mapM f l) as [bs|e] eqn:Em; cbn.
    + split; [intros [=<-]; constructor; [exact E|now apply IH]|]. intros H. inversion H as [|? ? ? ? H1 H2]; subst. apply IH in H2. congruence.
    + split; [discriminate|]. intros H. inversion H as [|? ? ? ? H1 H2]; subst. apply IH in H2. congruence.
Qed.
Lemma forall2_nth {X Y} (P : X -> Y -> Prop) l l' : Forall2 P l l' -> List.length l = List.length l' /\ forall k a, nth_error l k = Some a -> exists b, nth_error l' k = Some b /\ P a b.
Proof. induction 1 as [|a b l l' H _ [IL IH]]; [split; [reflexivity|intros [|k] a; discriminate]|]. split; [cbn; congruence|]. intros [|k] x; cbn; [intros [=<-]; now exists b|apply IH]. Qed.
Lemma forall2_of_nth {X Y} (P : X -> Y -> Prop) l l' : List.length l = List.length l' -> (forall k a b, nth_error l k = Some a -> nth_error l' k = Some b -> P a b) -> Forall2 P l l'.
Proof. revert l'. induction l as [|a l IH]; intros [|b l'] HL H; try discriminate; constructor; [now apply (H 0%nat)|]. apply IH; [now inversion HL|]. intros k x y. apply (H (S k)). Qed.
Lemma forall2_ex {X Y} (P : X -> Y -> Prop) l : (forall k a, nth_error l k = Some a -> exists b, P a b) -> exists l', Forall2 P l l'.
Proof.
  induction l as [|a l IH]; intros H; [exists []; constructor|]. destruct (H 0%nat a eq_refl) as [b Hb]. destruct IH as [l' Hl]; [intros k x; apply (H (S k))|]. exists (b :: l'). now constructor.
Qed.

(** ** Columns by name *)
Lemma find_none {B} c (columns : list string) (l : list B) : ~ In c columns -> find c (combine columns l) = None.
Proof. revert l. induction columns as [|a columns IH]; intros [|b l] H; try reflexivity. cbn. rewrite IH by (intros K; apply H; now right). destruct (String.eqb_spec c a) as [->|]; [exfalso; apply H; now left|reflexivity]. Qed.
Lemma find_at {B} (columns : list string) (l : list B) : NoDup columns -> forall k c, nth_error columns k = Some c -> find c (combine columns l) = nth_error l k.
Proof.
  intros ND. revert l. induction ND as [|a columns Ha ND IH]; intros l k c E; [destruct k; discriminate|]. destruct l as [|b l]; [destruct k; reflexivity|]. destruct k as [|k]; cbn in E.
  - inversion E; subst. cbn. rewrite (find_none c columns l Ha). now rewrite String.eqb_refl.
  - cbn. rewrite (IH l k c E). destruct (nth_error l k) as [x|] eqn:N; [reflexivity|]. destruct (String.eqb_spec c a) as [->|]; [|reflexivity]. exfalso. apply Ha. eapply nth_error_In; eauto.
Qed.
Lemma seq_nth k n m : (k < n)%nat -> nth_error (seq m n) k = Some (m + k)%nat.
Proof. revert k m. induction n as [|n IH]; intros k m H; [lia|]. destruct k as [|k]; cbn; [f_equal; lia|]. rewrite IH by lia. f_equal. lia. Qed.
Lemma find_in {B} (l : list (string * B)) c b : NoDup (map fst l) -> In (c, b) l -> find c l = Some b.
Proof.
  induction l as [|[c' b'] l IH]; intros ND H; [destruct H|]. cbn in ND. inversion ND as [|? ? N1 N2]; subst. cbn [find]. destruct H as [H|H].
  - inversion H; subst. assert (F : find c l = None). { clear -N1. induction l as [|[c' b'] l IH]; [reflexivity|]. cbn. cbn in N1. rewrite IH by tauto. destruct (String.eqb_spec c c') as [->|]; [exfalso; apply N1; now left|reflexivity]. }
    rewrite F. now rewrite String.eqb_refl.
  - now rewrite (IH N2 H).
Qed.
Section Read.
Context {A : Type} (num date : text -> option A) (yaml : list text -> res (list (string * option text))).
Lemma position_is (columns : list string) k c : NoDup columns -> nth_error columns k = Some c -> position_of c columns = Some k.
Proof. intros ND E. unfold position_of. rewrite (find_at columns _ ND k c E). assert (k < List.length columns)%nat by (apply nth_error_Some; congruence). now rewrite seq_nth. Qed.
Lemma parsed_reading dates c t : parsed num date dates c (with_E t) = match reading num date dates c t with Some a => Ok a | None => Err ValueError end.
Proof. unfold parsed, reading. destruct (String.eqb_spec c "time") as [->|N]; destruct (string_dec _ "time") as [K|K]; try congruence; cbn [andb]; [|reflexivity]. destruct dates; reflexivity. Qed.
Lemma row_some columns d dates line fs vs : NoDup columns -> parted d line fs ->
  (row_of num date columns d dates line = Ok vs <->
   List.length vs = List.length columns /\ forall k c, nth_error columns k = Some c -> exists t a, nth_error fs k = Some t /\ reading num date dates c t = Some a /\ nth_error vs k = Some a).
Proof.
  intros ND Hp. unfold row_of. rewrite (fields_parted d line fs Hp). rewrite mapM_ok2.
  assert (Hc : forall k c, nth_error columns k = Some c -> find c (combine columns (map with_E fs)) = option_map with_E (nth_error fs k)).
  { intros k c E. rewrite (find_at columns _ ND k c E). now rewrite nth_error_map. }
  split.
  - intros H. destruct (forall2_nth _ _ _ H) as [HL H2]. split; [now symmetry|]. intros k c E. destruct (H2 k c E) as (a & E2 & E3). cbv beta in E3. rewrite (Hc k c E) in E3. destruct (nth_error fs k) as [t|] eqn:Et; [|discriminate]. cbn [option_map] in E3. rewrite parsed_reading in E3. exists t, a. destruct (reading num date dates c t) as [a'|]; [|discriminate]. inversion E3. now subst.
  - intros [HL H]. apply forall2_of_nth; [now symmetry|]. intros k c a E E2. destruct (H k c E) as (t & a' & E3 & E4 & E5). rewrite (Hc k c E), E3. cbn [option_map]. rewrite parsed_reading, E4. congruence.
Qed.
Lemma column_nth (rows : list (list A)) k : (forall r, In r rows -> nth_error r k <> None) -> List.length (column_at rows k) = List.length rows /\
  forall i r, nth_error rows i = Some r -> nth_error (column_at rows k) i = nth_error r k.
Proof.
  induction rows as [|r rows IH]; intros H; [split; [reflexivity|intros [|i] r; discriminate]|]. destruct IH as [IL IH]; [intros; apply H; now right|]. unfold column_at. cbn [flat_map]. destruct (nth_error r k) as [a|] eqn:E; [|exfalso; apply (H r); [now left|exact E]]. cbn [app]. split; [cbn; unfold column_at in IL; now rewrite IL|].
  intros [|i] r' E2; cbn in *; [inversion E2; subst; now symmetry|now apply IH].
Qed.
Lemma rows_table columns d dates lines rows : NoDup columns -> Forall2 (parted d) lines rows ->
  (Forall (readable num date dates columns) rows -> exists vals, mapM (row_of num date columns d dates) lines = Ok vals /\
     tabulated num date dates columns rows (map (fun c => match position_of c columns with Some k => column_at vals k | None => [] end) columns)) /\
  (forall vals, mapM (row_of num date columns d dates) lines = Ok vals -> Forall (readable num date dates columns) rows).
Proof.
  intros ND HF. destruct (forall2_nth _ _ _ HF) as [HL HN]. split.
  - intros HR. destruct (forall2_ex (fun line vs => row_of num date columns d dates line = Ok vs) lines) as [vals Hv].
    + intros i line Ei. destruct (HN i line Ei) as (fs & Ef & Hp). rewrite Forall_forall in HR. destruct (HR fs (nth_error_In _ _ Ef)) as [R1 R2].
      destruct (forall2_ex (fun kc a => exists t, nth_error fs (fst kc) = Some t /\ reading num date dates (snd kc) t = Some a) (combine (seq 0 (List.length columns)) columns)) as [vs Hvs].
      { intros k [k' c] Ek. assert (k' = k /\ nth_error columns k = Some c) as [-> Ec].
        { clear -Ek. assert (G : forall m (l : list string) k, nth_error (combine (seq m (List.length l)) l) k = Some (k', c) -> k' = (m + k)%nat /\ nth_error l k = Some c). { intros m l; revert m. induction l as [|x l IH]; intros m [|j] E; try discriminate; cbn in *; [inversion E; split; [lia|reflexivity]|]. apply IH in E as [-> E]. split; [lia|exact E]. } apply G in Ek as [-> E]. now split. }
        assert (k < List.length columns)%nat by (apply nth_error_Some; congruence). destruct (nth_error fs k) as [t|] eqn:Et; [|apply nth_error_None in Et; lia]. specialize (R2 k c t Ec Et). destruct (reading num date dates c t) as [a|] eqn:Er; [|congruence]. exists a, t. cbn [fst snd]. now split. }
      exists vs. apply (row_some columns d dates line fs vs ND Hp). destruct (forall2_nth _ _ _ Hvs) as [L1 L2]. rewrite combine_length, seq_length in L1. split; [lia|]. intros k c Ec.
      assert (Kl : (k < List.length columns)%nat) by (apply nth_error_Some; congruence).
      assert (Ek : nth_error (combine (seq 0 (List.length columns)) columns) k = Some (k, c)).
      { assert (G : forall m (l : list string) k, nth_error l k = Some c -> nth_error (combine (seq m (List.length l)) l) k = Some ((m + k)%nat, c)). { intros m l; revert m. induction l as [|x l IH]; intros m [|j] E; try discriminate; cbn in *; [inversion E; f_equal; f_equal; lia|]. rewrite (IH (S m) j E). f_equal. f_equal. lia. } exact (G 0%nat columns k Ec). }
      destruct (L2 k _ Ek) as (a & Ea & t & Et & Er). cbn [fst snd] in *. exists t, a. auto.
    + exists vals. split; [now apply mapM_ok2|]. destruct (forall2_nth _ _ _ Hv) as [VL VN]. unfold tabulated. rewrite map_length. split; [reflexivity|]. intros k c Ec. rewrite nth_error_map, Ec. cbn [option_map]. rewrite (position_is columns k c ND Ec). eexists. split; [reflexivity|].
      assert (HC : forall r, In r vals -> nth_error r k <> None).
      { intros r Hr. apply In_nth_error in Hr as [i Ei]. assert (i < List.length vals)%nat by (apply nth_error_Some; congruence). destruct (nth_error lines i) as [line|] eqn:El; [|apply nth_error_None in El; lia]. destruct (VN i line El) as (r' & Er & Hrow). assert (r' = r) by congruence. subst r'. destruct (HN i line El) as (fs & _ & Hp). apply (row_some columns d dates line fs r ND Hp) in Hrow as [_ Hrow]. destruct (Hrow k c Ec) as (t & a & _ & _ & E). congruence. }
      destruct (column_nth vals k HC) as [CL CN]. split; [lia|]. intros i row t Ei Et. assert (i < List.length rows)%nat by (apply nth_error_Some; congruence). destruct (nth_error lines i) as [line|] eqn:El; [|apply nth_error_None in El; lia]. destruct (HN i line El) as (fs & Ef & Hp). assert (fs = row) by congruence. subst fs. destruct (VN i line El) as (vs & Ev & Hrow). apply (row_some columns d dates line row vs ND Hp) in Hrow as [_ Hrow]. destruct (Hrow k c Ec) as (t' & a & Et' & Er & Ea). assert (t' = t) by congruence. subst t'. exists a. rewrite (CN i vs Ev). now split.
  - intros vals Hv. apply mapM_ok2 in Hv. destruct (forall2_nth _ _ _ Hv) as [VL VN]. apply Forall_forall. intros fs Hf. apply In_nth_error in Hf as [i Ei]. assert (i < List.length rows)%nat by (apply nth_error_Some; congruence). destruct (nth_error lines i) as [line|] eqn:El; [|apply nth_error_None in El; lia]. destruct (HN i line El) as (fs' & Ef & Hp). assert (fs' = fs) by congruence. subst fs'. destruct (VN i line El) as (vs & _ & Hrow). apply (row_some columns d dates line fs vs ND Hp) in Hrow as [_ Hrow]. split.
    + destruct (List.length columns) as [|m] eqn:Em; [lia|]. assert (Hm : (m < List.length columns)%nat) by lia. destruct (nth_error columns m) as [c|] eqn:Ec; [|apply nth_error_None in Ec; lia]. destruct (Hrow m c Ec) as (t & _ & Et & _). assert (m < List.length fs)%nat by (apply nth_error_Some; congruence). lia.
    + intros k c t Ec Et. destruct (Hrow k c Ec) as (t' & a & Et' & Er & _). congruence.
Qed.

(** ** A table is read exactly when each line has a readable field for each column *)
Theorem C74_read file lines rows columns d n dates : lines_of file lines -> NoDup columns -> (n <= List.length lines)%nat -> Forall2 (parted d) (skipn n lines) rows ->
  (Forall (readable num date dates columns) rows -> exists cols, from_ascii num date yaml file columns d (Skip n) dates = Ok cols /\ tabulated num date dates columns rows cols) /\
  (forall t, from_ascii num date yaml file columns d (Skip n) dates = Ok t -> Forall (readable num date dates columns) rows).
Proof.
  intros HL ND Hn HF. destruct (rows_table columns d dates _ rows ND HF) as [T1 T2]. unfold from_ascii. rewrite (splitlines_of file lines HL). rewrite (proj2 (Nat.ltb_ge _ _) Hn). cbn [bind fst snd]. split.
  - intros HR. destruct (T1 HR) as (vals & Ev & HT). rewrite Ev. cbn [bind]. eexists. split; [reflexivity|exact HT].
  - intros t E. destruct (mapM (row_of num date columns d dates) (skipn n lines)) as [vals|e] eqn:Ev; [|discriminate]. exact (T2 vals eq_refl).
Qed.

(** ** Headers *)
Lemma starts_spec p t : starts p t = true <-> exists b, t = (p ++ b)%list.
Proof.
  revert t. induction p as [|a p IH]; intros t; [split; [now exists t|reflexivity]|]. destruct t as [|b t]; cbn; [split; [discriminate|intros [? E]; discriminate]|]. rewrite andb_true_iff, Ascii.eqb_eq, IH. split.
  - intros [-> [x ->]]. now exists x.
  - intros [x E]. inversion E. split; [reflexivity|now exists x].
Qed.
Lemma contains_spec p t : contains p t = true <-> exists a b, t = (a ++ p ++ b)%list.
Proof.
  induction t as [|x t IH]; cbn [contains]; rewrite orb_true_iff, starts_spec.
  - split; [intros [[b E]|K]; [exists [], b; exact E|discriminate]|]. intros (a & b & E). destruct a; [|discriminate]. left. now exists b.
  - rewrite IH. split; [intros [[b E]|(a & b & ->)]; [exists [], b; exact E|exists (x :: a), b; reflexivity]|]. intros ([|y a] & b & E); [left; now exists b|]. cbn in E. inversion E. right. now exists a, b.
Qed.
Lemma closes_spec l : contains marker l = true <-> closes l.
Proof. apply contains_spec. Qed.
Lemma header_counted hd m body : Forall (fun l => ~ closes l) hd -> closes m -> header_lines (hd ++ m :: body) = S (List.length hd).
Proof.
  intros H Hm. induction H as [|l hd Hl _ IH]; cbn [app header_lines List.length].
  - now rewrite (proj2 (closes_spec m) Hm).
  - destruct (contains marker l) eqn:E; [apply closes_spec in E; contradiction|]. now rewrite IH.
Qed.
Lemma header_all hd : Forall (fun l => ~ closes l) hd -> header_lines hd = List.length hd.
Proof. induction 1 as [|l hd Hl _ IH]; [reflexivity|]. cbn [header_lines List.length]. destruct (contains marker l) eqn:E; [apply closes_spec in E; contradiction|]. now rewrite IH. Qed.
Lemma fills_found vars columns : NoDup (map fst vars) -> (forall c, In c columns -> exists f, In (c, f) vars) ->
  exists fills, mapM (fun c => match find c vars with Some f => Ok f | None => Err KeyError end) columns = Ok fills /\
    List.length fills = List.length columns /\ forall k c f, nth_error columns k = Some c -> In (c, f) vars -> @nth_error (option text) fills k = Some f.
Proof.
  intros NV H. destruct (forall2_ex (fun c f => In (c, f) vars) columns) as [fills Hf]; [intros k c E; apply H; eapply nth_error_In; eauto|].
  exists fills. split; [|split].
  - apply mapM_ok2. clear -Hf NV. induction Hf as [|c f l l' Hc _ IH]; constructor; [|exact IH]. now rewrite (find_in vars c f NV Hc).
  - symmetry. now apply (forall2_nth _ _ _ Hf).
  - intros k c f E Hc. destruct (proj2 (forall2_nth _ _ _ Hf) k c E) as (f' & E2 & H2). rewrite E2. f_equal. pose proof (find_in vars c f NV Hc). pose proof (find_in vars c f' NV H2). congruence.
Qed.
Lemma cut_first {X} (m : X) hd body : firstn (S (List.length hd)) (hd ++ m :: body) = (hd ++ [m])%list.
Proof. induction hd as [|a hd IH]; [reflexivity|]. cbn [List.length app]. rewrite firstn_cons. now rewrite IH. Qed.
Lemma cut_rest {X} (m : X) hd body : skipn (S (List.length hd)) (hd ++ m :: body) = body.
Proof. induction hd as [|a hd IH]; [reflexivity|]. exact IH. Qed.
Lemma Forall2_skip {X Y} (P : X -> Y -> Prop) (a : list X) l r : Forall2 P l r -> Forall2 P (skipn (List.length a) (a ++ l)) r.
Proof. rewrite skipn_app, skipn_all, Nat.sub_diag. exact (fun H => H). Qed.

(** ** A table below a header: the header ends with the first line that has the closing words;
    a fill value in the header is an error *)
Theorem C74_header file hd m body rows vars columns d dates : lines_of file (hd ++ m :: body) -> Forall (fun l => ~ closes l) hd -> closes m ->
  yaml (hd ++ [m]) = Ok vars -> NoDup (map fst vars) -> (forall c, In c columns -> exists f, In (c, f) vars) -> NoDup columns -> Forall2 (parted d) body rows ->
  ((forall f, In "data"%string columns -> In ("data"%string, f) vars -> f = None) -> Forall (readable num date dates columns) rows ->
     exists cols, from_ascii num date yaml file columns d Yaml dates = Ok cols /\ tabulated num date dates columns rows cols) /\
  (forall f, In "data"%string columns -> In ("data"%string, Some f) vars -> Forall (readable num date dates columns) rows -> from_ascii num date yaml file columns d Yaml dates = Err TypeError) /\
  (forall t, from_ascii num date yaml file columns d Yaml dates = Ok t ->
     Forall (readable num date dates columns) rows /\ forall f, In "data"%string columns -> In ("data"%string, f) vars -> f = None).
Proof.
  intros HL Hh Hm Ey NV HV ND HF. destruct (rows_table columns d dates _ rows ND HF) as [T1 T2]. destruct (fills_found vars columns NV HV) as (fills & Ef & FL & FN).
  unfold from_ascii. rewrite (splitlines_of file _ HL). rewrite (header_counted hd m body Hh Hm).
  rewrite cut_first.
  rewrite Ey. cbn [bind]. rewrite Ef. cbn [bind fst snd].
  rewrite cut_rest.
  assert (FD : forall f, In "data"%string columns -> In ("data"%string, f) vars -> find "data" (combine columns fills) = Some f).
  { intros f Hd Hv. apply In_nth_error in Hd as [k Ek]. rewrite (find_at columns fills ND k _ Ek). exact (FN k _ f Ek Hv). }
  split; [|split].
  - intros Hno HR. destruct (T1 HR) as (vals & Ev & HT). rewrite Ev. cbn [bind].
    assert (E0 : match find "data" (combine columns fills) with Some f => f | None => None end = None).
    { destruct (in_dec string_dec "data"%string columns) as [Hd|Hd]; [|now rewrite (find_none _ _ _ Hd)]. destruct (HV _ Hd) as [f Hf]. rewrite (FD f Hd Hf). exact (Hno f Hd Hf). }
    rewrite E0. eexists. split; [reflexivity|exact HT].
  - intros f Hd Hf HR. destruct (T1 HR) as (vals & Ev & _). rewrite Ev. cbn [bind]. now rewrite (FD (Some f) Hd Hf).
  - intros t E. destruct (mapM (row_of num date columns d dates) body) as [vals|e] eqn:Ev; [|discriminate]. cbn [bind] in E. split; [exact (T2 vals eq_refl)|]. intros f Hd Hf. rewrite (FD f Hd Hf) in E. destruct f; [discriminate|reflexivity].
Qed.
(** ** A header whose end is not found is the whole file, and the table is empty *)
Theorem C74_unended file lines vars columns d dates : lines_of file lines -> Forall (fun l => ~ closes l) lines ->
  yaml lines = Ok vars -> NoDup (map fst vars) -> (forall c, In c columns -> In (c, None) vars) -> NoDup columns ->
  from_ascii num date yaml file columns d Yaml dates = Ok (map (fun _ => []) columns).
Proof.
  intros HL Hh Ey NV HV ND. destruct (fills_found vars columns NV (fun c Hc => ex_intro _ None (HV c Hc))) as (fills & Ef & FL & FN).
  unfold from_ascii. rewrite (splitlines_of file _ HL). rewrite (header_all lines Hh). rewrite firstn_all, Ey. cbn [bind]. rewrite Ef. cbn [bind fst snd]. rewrite skipn_all. cbn [mapM bind].
  assert (E0 : match find "data" (combine columns fills) with Some f => f | None => None end = None).
  { destruct (in_dec string_dec "data"%string columns) as [Hd|Hd]; [|now rewrite (find_none _ _ _ Hd)]. pose proof (HV _ Hd) as Hv. apply In_nth_error in Hd as [k Ek]. rewrite (find_at columns fills ND k _ Ek). now rewrite (FN k _ None Ek Hv). }
  rewrite E0. f_equal. apply map_ext. intros c. destruct (position_of c columns); reflexivity.
Qed.
End Read.
Print Assumptions C74_read.
Print Assumptions C74_header.
Print Assumptions C74_unended.
