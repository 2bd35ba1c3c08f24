(** C95: deprecated functions do what they stand for. *)
From Coq Require Import String Ascii List Bool.
From Verif Require Import PyBase StrBase WrapModel WrapSpec.
From Verif Require ComputeModel AstroProps.
Import ListNotations.
Open Scope string_scope.

Section Props.
Variable package : string -> bool.
Variable A : Type.
Variable behave : string -> args A -> res A.
Variable none : A.
Variable text : A -> option string.
Variable strict : bool.
Variable ocean : A.
Notation call := (call package A behave none text strict ocean).

Ltac known I := repeat match goal with
  | |- context [package ?s] => rewrite (I s) by (cbn; tauto)
  end.
(** run the module and look the function up, with the package opaque *)
Ltac start := unfold WrapModel.call; cbn -[String.eqb]; cbn.

Lemma run_app g l1 l2 : run package g (l1 ++ l2)%list = bind (run package g l1) (fun g' => run package g' l2).
Proof. revert g; induction l1 as [|s l1 IH]; intros g; [reflexivity|]. cbn. destruct (step package g s); cbn; auto. Qed.

Definition pre_class : env :=
  ("_delta_file", Outside "_delta_file") ::
  (rev (map (fun f => (fst f, Function (Forward true (One (snd f)) ["timescale"; "time"; fst f] true))) of_one_argument
     ++ map (fun f => (f, Function (Forward true Anything ["timescale"; "time"; f] true))) of_any_arguments)
   ++ [("timescale", Outside "timescale"); ("numpy", Outside "numpy"); ("warnings", Outside "warnings"); ("logging", Outside "logging")])%list.

Lemma time_env name : installed package needed_by_time ->
  run package [] (time_module name) = Ok ((name, Class (Outside "timescale.time.Timescale")) :: pre_class).
Proof.
  intros I.
  assert (P1 := I "logging" ltac:(cbn; tauto)). assert (P2 := I "warnings" ltac:(cbn; tauto)).
  assert (P3 := I "numpy" ltac:(cbn; tauto)). assert (P4 := I "timescale.time" ltac:(cbn; tauto)).
  assert (P5 := I "timescale.utilities" ltac:(cbn; tauto)).
  assert (P6 := I "timescale.utilities.get_data_path" ltac:(cbn; tauto)).
  assert (P7 := I "timescale.time.Timescale" ltac:(cbn; tauto)).
  unfold time_module. cbn. rewrite P1. cbn. rewrite P2. cbn. rewrite P3. cbn. rewrite P4. cbn.
  unfold resolve. cbn. rewrite P5. cbn. rewrite P6. cbn. unfold resolve. cbn. rewrite P4. cbn. rewrite P7. cbn. reflexivity.
Qed.

(** Every function of pyTMD/time.py raises, whatever it is called with: the class defined last takes the
    name of the package the functions look in. *)
Theorem C95_time_refuted :
  installed package needed_by_time -> package "timescale.time.Timescale.time" = false ->
  (forall f v, In f functions_of_time -> call time_py f (Args [v] []) = unless strict (Err AttributeError)) /\
  (forall f p v, In (f, p) of_one_argument -> call time_py f (Args [] [(p, v)]) = unless strict (Err AttributeError)) /\
  (forall f a, In f of_any_arguments -> call time_py f a = unless strict (Err AttributeError)) /\
  (forall f a, In f functions_of_time -> exists e, call time_py f a = Err e).
Proof.
  intros I N.
  assert (G : forall f a, In f of_any_arguments -> call time_py f a = unless strict (Err AttributeError)).
  { intros f a H. unfold WrapModel.call, time_py. rewrite (time_env "timescale" I).
    cbn in H. repeat (destruct H as [<- | H]); try contradiction; cbn; unfold warn, unless; destruct strict; cbn; try reflexivity;
    unfold resolve; cbn; unfold dot; cbn; rewrite N; reflexivity. }
  assert (O : forall f p a, In (f, p) of_one_argument ->
    call time_py f a = bind (accept A (One p) a) (fun _ => unless strict (Err AttributeError))).
  { intros f p a H. unfold WrapModel.call, time_py. rewrite (time_env "timescale" I).
    cbn in H. repeat (destruct H as [E | H]; [injection E as <- <- |]); try contradiction; cbn -[accept];
    (destruct (accept A _ a) as [a'|e]; cbn; [|reflexivity]); unfold warn, unless; destruct strict; cbn; try reflexivity;
    unfold resolve; cbn; unfold dot; cbn; rewrite N; reflexivity. }
  assert (M : forall f, In f functions_of_time -> In f of_any_arguments \/ exists p, In (f, p) of_one_argument).
  { intros f H. unfold functions_of_time in H. apply in_app_or in H as [H|H]; [right|now left].
    apply in_map_iff in H as ((f', p) & <- & H). now exists p. }
  repeat split.
  - intros f v H. destruct (M f H) as [H'|(p & H')]; [now apply G|]. rewrite (O f p _ H'). reflexivity.
  - intros f p v H. rewrite (O f p _ H). cbn. now rewrite String.eqb_refl.
  - exact G.
  - intros f a H. destruct (M f H) as [H'|(p & H')].
    + rewrite (G f a H'). unfold unless; destruct strict; eauto.
    + rewrite (O f p _ H'). destruct (accept A _ a); cbn; eauto. unfold unless; destruct strict; eauto.
Qed.

(** The class is all there is to it: under any other name every function gives what it stands for. *)
Theorem C95_time_renamed : forall name,
  installed package needed_by_time -> installed package targets_of_time ->
  name <> "timescale" -> ~ In name functions_of_time ->
  (forall f a, In f of_any_arguments -> call (time_module name) f a = unless strict (behave ("timescale.time." ++ f) a)) /\
  (forall f p v, In (f, p) of_one_argument ->
     call (time_module name) f (Args [v] []) = unless strict (behave ("timescale.time." ++ f) (Args [v] [])) /\
     call (time_module name) f (Args [] [(p, v)]) = unless strict (behave ("timescale.time." ++ f) (Args [v] []))).
Proof.
  intros name I T D F.
  assert (E0 : String.eqb name "timescale" = false) by now apply String.eqb_neq.
  assert (EF : forall f, In f functions_of_time -> String.eqb name f = false).
  { intros f H. apply String.eqb_neq. intros ->. contradiction. }
  assert (TT : package "timescale.time" = true) by (apply I; cbn; tauto).
  assert (TF : forall f, In f functions_of_time -> package ("timescale.time." ++ f) = true).
  { intros f H. apply T. unfold targets_of_time. now apply (in_map (fun f => "timescale.time." ++ f)). }
  split.
  - intros f a H. unfold WrapModel.call. rewrite (time_env name I).
    cbn in H. repeat (destruct H as [<- | H]); try contradiction; cbn -[pre_class String.eqb];
    (rewrite EF by (cbn; tauto)); cbn; unfold warn, unless; destruct strict; cbn; try reflexivity;
    unfold resolve; cbn -[String.eqb pre_class]; rewrite E0; cbn; unfold dot; cbn; rewrite TT; cbn;
    match goal with |- context [package ?s] => assert (Q : package s = true) by (apply T; cbn; tauto); rewrite Q end;
    cbn; match goal with |- context [behave ?s a] => destruct (behave s a) end; reflexivity.
  - intros f p v H. unfold WrapModel.call. rewrite (time_env name I).
    cbn in H. repeat (destruct H as [E | H]; [injection E as <- <- |]); try contradiction; cbn -[pre_class String.eqb];
    (rewrite EF by (cbn; tauto)); cbn; unfold warn, unless; destruct strict; cbn; try (split; reflexivity);
    unfold resolve; cbn -[String.eqb pre_class]; rewrite E0; cbn; unfold dot; cbn; rewrite TT; cbn;
    match goal with |- context [package ?s] => assert (Q : package s = true) by (apply T; cbn; tauto); rewrite Q end;
    cbn; match goal with |- context [behave ?s ?a] => destruct (behave s a) end; split; reflexivity.
Qed.

(** pyTMD.time.timescale itself is the class of the package *)
Theorem C95_time_class : forall kw v r,
  installed package needed_by_time ->
  call time_py "timescale" (Args [] kw) = behave "timescale.time.Timescale" (Args [] kw) /\
  call time_py "timescale" (Args (v :: r) kw) = Err TypeError.
Proof. intros kw v r I. unfold WrapModel.call, time_py. rewrite (time_env "timescale" I). split; reflexivity. Qed.

(** were the class to have an attribute of that name, its functions would be called *)
Theorem C95_time_attribute : forall f a,
  installed package needed_by_time -> In f of_any_arguments ->
  package "timescale.time.Timescale.time" = true -> package ("timescale.time.Timescale.time." ++ f) = true ->
  call time_py f a = unless strict (behave ("timescale.time.Timescale.time." ++ f) a).
Proof.
  intros f a I H P Q. unfold WrapModel.call, time_py. rewrite (time_env "timescale" I).
  cbn in H. repeat (destruct H as [<- | H]); try contradiction; cbn; unfold warn, unless; destruct strict; cbn; try reflexivity;
  unfold resolve; cbn; unfold dot; cbn; rewrite P; cbn; cbn in Q; rewrite Q; cbn;
  match goal with |- context [behave ?s a] => destruct (behave s a) end; reflexivity.
Qed.

(** pyTMD/eop.py: the readers return what they stand for, the downloads return nothing *)
Theorem C95_eop :
  installed package needed_by_eop -> installed package targets_of_eop ->
  (forall f a, In f ["iers_mean_pole"; "iers_polar_motion"] ->
     call eop_py f a = unless strict (behave ("timescale.eop." ++ f) a)) /\
  (forall a, call eop_py "pull_pole_coordinates" a =
     unless strict (do _ <- behave "timescale.eop.pull_pole_coordinates" a ;; Ok none)) /\
  (forall kw, call eop_py "iers_daily_EOP" (Args [] kw) = unless strict (behave "timescale.eop.iers_daily_EOP" (Args [] kw))) /\
  (forall f kw, In f updates -> call eop_py f (Args [] kw) =
     unless strict (do _ <- behave ("timescale.eop." ++ f) (Args [] kw) ;; Ok none)) /\
  (forall f v r kw, In f ("iers_daily_EOP" :: updates) -> call eop_py f (Args (v :: r) kw) = Err TypeError).
Proof.
  intros I T.
  assert (P1 := I "logging" ltac:(cbn; tauto)). assert (P2 := I "warnings" ltac:(cbn; tauto)).
  assert (P4 := I "timescale.eop" ltac:(cbn; tauto)).
  assert (P5 := I "timescale.utilities" ltac:(cbn; tauto)).
  assert (P6 := I "timescale.utilities.get_data_path" ltac:(cbn; tauto)).
  assert (R : exists g, run package [] eop_py = Ok g /\ lookup "timescale" g = Some (Outside "timescale") /\
     (forall f, In f ["iers_mean_pole"; "iers_polar_motion"] ->
        lookup f g = Some (Function (Forward true Anything ["timescale"; "eop"; f] true))) /\
     lookup "pull_pole_coordinates" g = Some (Function (Forward true Anything ["timescale"; "eop"; "pull_pole_coordinates"] false)) /\
     lookup "iers_daily_EOP" g = Some (Function (Forward true NamedOnly ["timescale"; "eop"; "iers_daily_EOP"] true)) /\
     (forall f, In f updates -> lookup f g = Some (Function (Forward true NamedOnly ["timescale"; "eop"; f] false)))).
  { eexists. split.
    - unfold eop_py. cbn. rewrite P2. cbn. rewrite P1. cbn. rewrite P4. cbn. rewrite P5. cbn. unfold resolve. cbn.
      rewrite P5. cbn. rewrite P6. cbn. unfold resolve. cbn. rewrite P5. cbn. rewrite P6. cbn. reflexivity.
    - split; [reflexivity|]. split; [intros f H; cbn in H; repeat (destruct H as [<- | H]); try contradiction; reflexivity|].
      split; [reflexivity|]. split; [reflexivity|].
      intros f H; cbn in H; repeat (destruct H as [<- | H]); try contradiction; reflexivity. }
  destruct R as (g & Rg & Lt & L1 & L2 & L3 & L4).
  assert (Res : forall f, In ("timescale.eop." ++ f) targets_of_eop ->
    resolve package g ["timescale"; "eop"; f] = Ok (Outside ("timescale.eop." ++ f))).
  { intros f H. unfold resolve. rewrite Lt. cbn. unfold dot. cbn. rewrite P4. cbn. unfold dot. cbn.
    change (package (String "t" _)) with (package ("timescale.eop." ++ f)). now rewrite (T _ H). }
  unfold WrapModel.call. rewrite Rg. cbn [bind].
  repeat split.
  - intros f a H. rewrite (L1 f H). cbn [invoke accept bind]. unfold warn, unless.
    destruct strict; cbn [bind]; [reflexivity|]. rewrite Res by (cbn in H |- *; intuition subst; cbn; tauto).
    cbn [bind apply_outside]. destruct (behave _ a); reflexivity.
  - intros a. rewrite L2. cbn [invoke accept bind]. unfold warn, unless. destruct strict; cbn [bind]; [reflexivity|].
    rewrite Res by (cbn; tauto). cbn [bind apply_outside]. destruct (behave _ a); reflexivity.
  - intros kw. rewrite L3. cbn [invoke accept positional bind]. unfold warn, unless. destruct strict; cbn [bind]; [reflexivity|].
    rewrite Res by (cbn; tauto). cbn [bind apply_outside]. destruct (behave _ _); reflexivity.
  - intros f kw H. rewrite (L4 f H). cbn [invoke accept positional bind]. unfold warn, unless. destruct strict; cbn [bind]; [reflexivity|].
    rewrite Res by (cbn in H |- *; intuition subst; cbn; tauto). cbn [bind apply_outside]. destruct (behave _ _); reflexivity.
  - intros f v r kw [<-|H]; [rewrite L3 | rewrite (L4 f H)]; reflexivity.
Qed.

Lemma corrections_env : installed package needed_by_corrections ->
  exists g, run package [] corrections_py = Ok g /\ lookup "pyTMD" g = Some (Outside "pyTMD") /\
    lookup "compute_corrections" g = Some (Function Choose) /\
    forall w t, In (w, t) wrappers -> lookup w g = Some (Function (Forward false Anything ["pyTMD"; "compute"; t] true)).
Proof.
  intros I.
  assert (P2 := I "warnings" ltac:(cbn; tauto)). assert (P3 := I "numpy" ltac:(cbn; tauto)).
  assert (P4 := I "pyTMD.compute" ltac:(cbn; tauto)).
  eexists. split; [|split; [|split]].
  - unfold corrections_py. cbn. rewrite P2. cbn. rewrite P3. cbn. rewrite P4. cbn. reflexivity.
  - reflexivity.
  - reflexivity.
  - intros w t H. cbn in H. repeat (destruct H as [E | H]; [injection E as <- <- |]); try contradiction; reflexivity.
Qed.
Lemma resolve_compute g t : installed package needed_by_corrections -> lookup "pyTMD" g = Some (Outside "pyTMD") ->
  In ("pyTMD.compute." ++ t) needed_by_corrections ->
  resolve package g ["pyTMD"; "compute"; t] = Ok (Outside ("pyTMD.compute." ++ t)).
Proof.
  intros I L H. unfold resolve. rewrite L. cbn. unfold dot. cbn. rewrite (I "pyTMD.compute") by (cbn; tauto). cbn. unfold dot. cbn.
  change (package (String "p" _)) with (package ("pyTMD.compute." ++ t)). now rewrite (I _ H).
Qed.

(** wrappers of single functions give what these functions give, for any arguments *)
Theorem C95_wrappers :
  installed package needed_by_corrections ->
  (forall w t a, In (w, t) wrappers -> call corrections_py w a = behave ("pyTMD.compute." ++ t) a) /\
  (forall a, call check_points_py "check_points" a = unless strict (behave "pyTMD.compute.tide_masks" a)).
Proof.
  intros I. split.
  - intros w t a H. destruct (corrections_env I) as (g & Rg & Lp & _ & L). unfold WrapModel.call. rewrite Rg. cbn [bind].
    rewrite (L w t H). cbn [invoke accept bind].
    rewrite resolve_compute; auto.
    + cbn [bind apply_outside]. destruct (behave _ a); reflexivity.
    + cbn in H. repeat (destruct H as [E | H]; [injection E as <- <-; cbn; tauto |]). contradiction.
  - intros a. unfold WrapModel.call, check_points_py. cbn.
    rewrite (I "pathlib") by (cbn; tauto). cbn. rewrite (I "warnings") by (cbn; tauto). cbn. rewrite (I "pyTMD.compute") by (cbn; tauto). cbn.
    unfold warn, unless. destruct strict; cbn; [reflexivity|].
    unfold resolve. cbn. unfold dot. cbn. rewrite (I "pyTMD.compute") by (cbn; tauto). cbn.
    rewrite (I "pyTMD.compute.tide_masks") by (cbn; tauto). cbn. destruct (behave _ a); reflexivity.
Qed.

Lemma upper_iff s k : String.eqb (upper s) (upper k) = String.eqb (lower s) (lower k).
Proof.
  apply eq_true_iff_eq. rewrite !String.eqb_eq. split; intros H.
  - rewrite <- (lower_upper s), H. apply lower_upper.
  - rewrite <- (AstroProps.upper_of_lower s), H. apply AstroProps.upper_of_lower.
Qed.
(** what a name selects, in terms of the table *)
Lemma choice_table s : choice s = match lookup (lower s) by_name with
  | Some t => Ok ["pyTMD"; "compute"; t] | None => Err ValueError end.
Proof.
  unfold choice. cbn [by_name lookup existsb].
  change "LPET" with (upper "lpet"). change "LPT" with (upper "lpt"). change "OPT" with (upper "opt"). change "SET" with (upper "set").
  rewrite !upper_iff. change (lower "lpet") with "lpet". change (lower "lpt") with "lpt". change (lower "opt") with "opt". change (lower "set") with "set".
  rewrite (String.eqb_sym "ocean"), (String.eqb_sym "load"), (String.eqb_sym "lpet"), (String.eqb_sym "lpt"), (String.eqb_sym "opt"), (String.eqb_sym "set").
  change (upper "lpet") with "LPET". 
  destruct (String.eqb (lower s) "ocean"); [reflexivity|]. destruct (String.eqb (lower s) "load"); [reflexivity|].
  cbn [orb].
  destruct (String.eqb (lower s) "lpet"); [reflexivity|]. destruct (String.eqb (lower s) "lpt"); [reflexivity|].
  destruct (String.eqb (lower s) "opt"); [reflexivity|]. destruct (String.eqb (lower s) "set"); reflexivity.
Qed.
Lemma filter_absent (p : string) (l : list (string * A)) : lookup p l = None ->
  filter (fun e => negb (String.eqb (fst e) p)) l = l.
Proof.
  induction l as [|[n v] l IH]; [reflexivity|]. cbn. destruct (String.eqb n p) eqn:E; [discriminate|]. intros H. cbn. now rewrite IH.
Qed.
Lemma lookup_app {B} (p : string) (k1 k2 : list (string * B)) : lookup p k1 = None -> lookup p (k1 ++ k2)%list = lookup p k2.
Proof. induction k1 as [|[n v] k1 IH]; [reflexivity|]. cbn. destruct (String.eqb n p); [discriminate|]. exact IH. Qed.

(** compute_corrections: the name of the correction, in any case and given by position or by name, selects the
    function, which is given the three arrays and the other arguments; so does pyTMD.compute.corrections *)
Definition selected (c : A) (a : args A) : res A :=
  match text c with
  | None => Err AttributeError
  | Some s => match lookup (lower s) by_name with
              | Some t => behave ("pyTMD.compute." ++ t) a
              | None => Err ValueError
              end
  end.
Lemma tail_selected g c x y t kw : installed package needed_by_corrections -> lookup "pyTMD" g = Some (Outside "pyTMD") ->
  (do _ <- warn strict ;;
   do s <- match text c with Some s => Ok s | None => Err AttributeError end ;;
   do p <- choice s ;;
   do f <- resolve package g p ;;
   apply_outside A behave f (Args [x; y; t] kw)) = unless strict (selected c (Args [x; y; t] kw)).
Proof.
  intros I L. unfold warn, unless, selected. destruct strict; [reflexivity|]. cbn [bind].
  destruct (text c) as [s|]; [|reflexivity]. cbn [bind]. rewrite choice_table.
  destruct (lookup (lower s) by_name) as [f|] eqn:E; [|reflexivity]. cbn [bind].
  rewrite resolve_compute; auto.
  revert E. unfold by_name. cbn [lookup].
  repeat (match goal with |- context [String.eqb ?a ?b] => destruct (String.eqb a b) end; [intros E; injection E as <-; cbn; tauto|]).
  discriminate.
Qed.

Theorem C95_compute_corrections : forall x y t c s kw k1 k2,
  installed package needed_by_corrections ->
  (forall p, In p ["x"; "y"; "delta_time"; "CORRECTION"] -> lookup p kw = None /\ lookup p k1 = None /\ lookup p k2 = None) ->
  text ocean = Some "ocean" -> text c = Some s ->
  let result kw := match lookup (lower s) by_name with
                   | Some f => behave ("pyTMD.compute." ++ f) (Args [x; y; t] kw)
                   | None => Err ValueError
                   end in
  call corrections_py "compute_corrections" (Args [x; y; t] kw) =
    unless strict (behave "pyTMD.compute.tide_elevations" (Args [x; y; t] kw)) /\
  call corrections_py "compute_corrections" (Args [x; y; t; c] kw) = unless strict (result kw) /\
  call corrections_py "compute_corrections" (Args [x; y; t] (k1 ++ ("CORRECTION", c) :: k2)%list) =
    unless strict (result (k1 ++ k2)%list).
Proof.
  intros x y t c s kw k1 k2 I F O C result.
  destruct (corrections_env I) as (g & Rg & Lp & Lc & _).
  destruct (F "x" ltac:(cbn; tauto)) as (Fx & Fx1 & Fx2). destruct (F "y" ltac:(cbn; tauto)) as (Fy & Fy1 & Fy2).
  destruct (F "delta_time" ltac:(cbn; tauto)) as (Ft & Ft1 & Ft2). destruct (F "CORRECTION" ltac:(cbn; tauto)) as (Fc & Fc1 & Fc2).
  unfold WrapModel.call. rewrite Rg. cbn [bind]. rewrite Lc. cbn [invoke].
  split; [|split].
  - unfold take at 1. cbn [positional named]. rewrite Fx. cbn [bind snd]. unfold take at 1. cbn [positional named]. rewrite Fy. cbn [bind snd].
    unfold take at 1. cbn [positional named]. rewrite Ft. cbn [bind snd]. unfold take at 1. cbn [positional named]. rewrite Fc. cbn [bind snd fst positional named].
    rewrite tail_selected by assumption. unfold selected. now rewrite O.
  - unfold take at 1. cbn [positional named]. rewrite Fx. cbn [bind snd]. unfold take at 1. cbn [positional named]. rewrite Fy. cbn [bind snd].
    unfold take at 1. cbn [positional named]. rewrite Ft. cbn [bind snd]. unfold take at 1. cbn [positional named]. rewrite Fc. cbn [bind snd fst positional named].
    rewrite tail_selected by assumption. unfold selected. now rewrite C.
  - unfold take at 1. cbn [positional named]. rewrite lookup_app by assumption. cbn [lookup]. change (String.eqb "CORRECTION" "x") with false. cbn iota. rewrite Fx2. cbn [bind snd].
    unfold take at 1. cbn [positional named]. rewrite lookup_app by assumption. cbn [lookup]. change (String.eqb "CORRECTION" "y") with false. cbn iota. rewrite Fy2. cbn [bind snd].
    unfold take at 1. cbn [positional named]. rewrite lookup_app by assumption. cbn [lookup]. change (String.eqb "CORRECTION" "delta_time") with false. cbn iota. rewrite Ft2. cbn [bind snd].
    unfold take at 1. cbn [positional named]. rewrite lookup_app by assumption. cbn [lookup]. change (String.eqb "CORRECTION" "CORRECTION") with true. cbn iota. cbn [bind snd fst positional named].
    rewrite tail_selected by assumption. unfold selected. rewrite C.
    rewrite filter_app. cbn [filter fst]. change (String.eqb "CORRECTION" "CORRECTION") with true. cbn [negb].
    now rewrite !filter_absent.
Qed.
End Props.

(** the wrapper and pyTMD.compute.corrections select the same *)
Theorem C95_same_choice : forall s,
  ComputeModel.corrections s = match lookup (lower s) by_name with
    | Some "tide_elevations" => Ok ComputeModel.Tide
    | Some "LPET_elevations" => Ok ComputeModel.LPET
    | Some "LPT_displacements" => Ok ComputeModel.LPT
    | Some "OPT_displacements" => Ok ComputeModel.OPT
    | Some "SET_displacements" => Ok ComputeModel.SET
    | _ => Err ValueError
    end.
Proof.
  intros s. unfold ComputeModel.corrections, mem_str. cbn [by_name lookup existsb].
  change "LPET" with (upper "lpet") at 1. change "LPT" with (upper "lpt") at 1. change "OPT" with (upper "opt") at 1. change "SET" with (upper "set") at 1.
  rewrite !upper_iff. change (lower "lpet") with "lpet". change (lower "lpt") with "lpt". change (lower "opt") with "opt". change (lower "set") with "set".
  rewrite (String.eqb_sym "ocean"), (String.eqb_sym "load"), (String.eqb_sym "lpet"), (String.eqb_sym "lpt"), (String.eqb_sym "opt"), (String.eqb_sym "set").
  destruct (String.eqb (lower s) "ocean"); [reflexivity|]. destruct (String.eqb (lower s) "load"); [reflexivity|].
  cbn [orb].
  destruct (String.eqb (lower s) "lpet"); [reflexivity|]. destruct (String.eqb (lower s) "lpt"); [reflexivity|].
  destruct (String.eqb (lower s) "opt"); [reflexivity|]. destruct (String.eqb (lower s) "set"); reflexivity.
Qed.
