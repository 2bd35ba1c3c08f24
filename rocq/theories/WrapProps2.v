(** C95, continued: the names of the package once it is imported, and concrete cases. *)
From Coq Require Import String Ascii List Bool.
From Verif Require Import PyBase StrBase WrapModel WrapSpec WrapProps.
Import ListNotations.
Open Scope string_scope.

Section Names.
Variable loads : string -> list string.
Hypothesis known : forall m x, In x (loads m) -> In x submodules.

Lemma mem_true (m : string) (l : list string) : existsb (String.eqb m) l = true <-> In m l.
Proof. exact (mem_str_In m l). Qed.

(** a name that loading cannot bind again *)
Definition settled (n : string) (h : holds) (s : package_state) : Prop :=
  lookup n (bound s) = Some h /\ (In n (loaded s) \/ ~ In n submodules).
Lemma settled_load_one n h s m : In m submodules -> settled n h s -> settled n h (load_one s m).
Proof.
  intros M [L S]. unfold load_one. destruct (existsb _ (loaded s)) eqn:E; [now split|].
  split; cbn.
  - destruct (String.eqb m n) eqn:Q; [|exact L]. apply String.eqb_eq in Q. subst m.
    destruct S as [S|S]; [|contradiction]. apply mem_true in S. congruence.
  - destruct S; auto.
Qed.
Lemma settled_fold n h l : (forall x, In x l -> In x submodules) -> forall s, settled n h s -> settled n h (fold_left load_one l s).
Proof.
  induction l as [|m l IH]; intros K s H; [exact H|]. cbn. apply IH; [intros; apply K; now right|].
  apply settled_load_one; auto. apply K; now left.
Qed.
Lemma settled_load n h s m : In m submodules -> settled n h s -> settled n h (load loads s m).
Proof.
  intros M H. unfold load. destruct (existsb _ (loaded s)); [exact H|].
  apply settled_load_one; auto. apply settled_fold; auto. apply known.
Qed.
Lemma lookup_other {B} n (l : list (string * B)) r : ~ In n (map fst l) -> lookup n (l ++ r)%list = lookup n r.
Proof.
  induction l as [|[k v] l IH]; intros H; [reflexivity|]. cbn in *. destruct (String.eqb k n) eqn:E.
  - apply String.eqb_eq in E. tauto.
  - apply IH. tauto.
Qed.
Lemma keys m l : map fst (rev (map (fun n => (n, Member m n)) l)) = rev l.
Proof. rewrite map_rev, map_map. cbn. now rewrite map_id. Qed.
Lemma settled_from n h s m l : In m submodules -> ~ In n l -> settled n h s -> settled n h (pstep loads s (FromImport m l)).
Proof.
  intros M N H. destruct (settled_load n h s m M H) as [L S]. split; cbn; auto.
  rewrite lookup_other; auto. rewrite keys. now rewrite <- in_rev.
Qed.
Lemma loaded_load_one s m : In m (loaded (load_one s m)).
Proof. unfold load_one. destruct (existsb _ _) eqn:E; [now apply mem_true | now left]. Qed.
Lemma loaded_load s m : In m (loaded (load loads s m)).
Proof. unfold load. destruct (existsb _ _) eqn:E; [now apply mem_true | apply loaded_load_one]. Qed.
Lemma lookup_members m n (l : list string) r : In n l -> lookup n (rev (map (fun n => (n, Member m n)) l) ++ r)%list = Some (Member m n).
Proof.
  intros H. apply in_rev in H. rewrite <- map_rev. induction (rev l) as [|k q IH]; [contradiction|].
  cbn. destruct (String.eqb k n) eqn:E; [apply String.eqb_eq in E; now subst|].
  apply IH. destruct H as [->|H]; [|exact H]. rewrite String.eqb_refl in E. discriminate.
Qed.
Lemma settled_here n s m l : In n l -> n = m \/ ~ In n submodules -> settled n (Member m n) (pstep loads s (FromImport m l)).
Proof.
  intros H C. split; cbn; [now apply lookup_members|]. destruct C as [->|C]; [left; apply loaded_load | now right].
Qed.

(** submodules that nothing else is named after *)
Definition covered : list string := ["crs"; "check_points"; "compute_tide_corrections"].
Definition plain (s : package_state) : Prop :=
  (forall m, In m (loaded s) -> In m submodules) /\
  (forall m, In m (loaded s) -> ~ In m covered -> lookup m (bound s) = Some (Submodule m)).
Lemma plain_load_one s m : In m submodules -> plain s -> plain (load_one s m).
Proof.
  intros M [P Q]. unfold load_one. destruct (existsb _ (loaded s)) eqn:E; [now split|]. split; cbn [loaded bound].
  - intros k [<-|H]; [exact M | now apply P].
  - intros k H C. cbn [lookup]. destruct (String.eqb m k) eqn:D; [apply String.eqb_eq in D; now subst|].
    destruct H as [->|H]; [rewrite String.eqb_refl in D; discriminate|]. auto.
Qed.
Lemma plain_lookup s m : plain s -> In m (loaded s) -> ~ In m covered -> lookup m (bound s) = Some (Submodule m).
Proof. intros [_ Q]. apply Q. Qed.
Lemma plain_load s m : In m submodules -> plain s -> plain (load loads s m).
Proof.
  intros M H. unfold load. destruct (existsb _ (loaded s)); [exact H|]. apply plain_load_one; auto.
  assert (K := known m). revert s H. induction (loads m) as [|x l IH]; intros s H; [exact H|]. cbn.
  apply IH; [intros; apply K; now right|]. apply plain_load_one; auto. apply K; now left.
Qed.
Lemma plain_from s m l : In m submodules -> (forall n, In n l -> In n covered \/ ~ In n submodules) ->
  plain s -> plain (pstep loads s (FromImport m l)).
Proof.
  intros M K H. destruct (plain_load s m M H) as [P Q]. split; cbn; auto.
  intros k I C. rewrite lookup_other; auto. rewrite keys, <- in_rev. intros J.
  destruct (K k J) as [|N]; [contradiction|]. apply N, P, I.
Qed.
Lemma loaded_mono_one s m k : In k (loaded s) -> In k (loaded (load_one s m)).
Proof. intros H. unfold load_one. destruct (existsb _ _); [exact H | now right]. Qed.
Lemma loaded_mono s m k : In k (loaded s) -> In k (loaded (load loads s m)).
Proof.
  intros H. unfold load. destruct (existsb _ _); [exact H|]. apply loaded_mono_one.
  revert s H. induction (loads m) as [|x l IH]; intros s H; [exact H|]. cbn. apply IH. now apply loaded_mono_one.
Qed.

Definition subject (p : pstmt) : string := match p with Load m => m | FromImport m _ => m end.
Definition imported (p : pstmt) : list string := match p with Load _ => [] | FromImport _ l => l end.
Lemma loaded_fold l k : forall s, In k (loaded s) \/ In k (map subject l) -> In k (loaded (fold_left (pstep loads) l s)).
Proof.
  induction l as [|p l IH]; intros s H; [destruct H as [H|[]]; exact H|]. cbn [fold_left]. apply IH.
  destruct H as [H|[H|H]]; [left|left|now right].
  - destruct p; cbn [pstep loaded]; now apply loaded_mono.
  - subst k. destruct p; cbn [pstep loaded subject]; apply loaded_load.
Qed.
Lemma plain_fold l : (forall p, In p l -> In (subject p) submodules /\ forall n, In n (imported p) -> In n covered \/ ~ In n submodules) ->
  forall s, plain s -> plain (fold_left (pstep loads) l s).
Proof.
  induction l as [|p l IH]; intros K s H; [exact H|]. cbn [fold_left]. apply IH; [intros; apply K; now right|].
  destruct (K p (or_introl eq_refl)) as [K1 K2]. destruct p; [now apply plain_load | now apply plain_from].
Qed.

Ltac member := cbn; tauto.
Ltac absent := apply not_in_compute; reflexivity.

(** Whatever the submodules load themselves: three names of submodules stand for what is imported from
    them, the other ones for the submodules. *)
Theorem C95_package :
  let s := bound (package_init loads init_py) in
  (forall n, In n ["crs"; "datum"; "_ellipsoids"] -> lookup n s = Some (Member "crs" n)) /\
  lookup "check_points" s = Some (Member "check_points" "check_points") /\
  (forall n, In n ("compute_corrections" :: map fst wrappers) -> lookup n s = Some (Member "compute_tide_corrections" n)) /\
  (forall m, In m submodules -> m <> "crs" -> m <> "check_points" -> m <> "compute_tide_corrections" ->
     lookup m s = Some (Submodule m)).
Proof.
  cbv zeta. unfold package_init.
  split; [|split; [|split]].
  - intros n H. cbn [init_py fold_left]. refine (proj1 (_ : settled n (Member "crs" n) _)).
    apply settled_load; [member|]. apply settled_load; [member|].
    apply settled_from; [member| |]. { cbn in H. repeat (destruct H as [<-|H]; [absent|]). contradiction. }
    apply settled_from; [member| |]. { cbn in H. repeat (destruct H as [<-|H]; [absent|]). contradiction. }
    apply settled_here; [exact H|]. cbn in H. destruct H as [<-|[<-|[<-|[]]]]; [now left | right; absent | right; absent].
  - cbn [init_py fold_left]. refine (proj1 (_ : settled "check_points" (Member "check_points" "check_points") _)).
    apply settled_load; [member|]. apply settled_load; [member|]. apply settled_from; [member|absent|].
    apply settled_here; [member | now left].
  - intros n H. cbn [init_py fold_left]. refine (proj1 (_ : settled n (Member "compute_tide_corrections" n) _)).
    apply settled_load; [member|]. apply settled_load; [member|].
    apply settled_here; [exact H|]. cbn in H.
    destruct H as [<-|[<-|H]]; [right; absent | now left |]. right.
    repeat (destruct H as [<-|H]; [absent|]). contradiction.
  - intros m H N1 N2 N3. apply plain_lookup.
    + apply plain_fold; [|split; intros k []].
      intros p I. assert (E : forallb (fun p => mem_str (subject p) submodules && forallb (fun n => mem_str n covered || negb (mem_str n submodules)) (imported p))
        init_py = true) by reflexivity.
      rewrite forallb_forall in E. specialize (E p I). apply andb_prop in E as [E1 E2]. split; [now apply mem_str_In|].
      rewrite forallb_forall in E2. intros n J. specialize (E2 n J). apply orb_prop in E2 as [E2|E2]; [left; now apply mem_str_In|].
      right. apply negb_true_iff in E2. now apply mem_str_false.
    + apply loaded_fold. right.
      assert (E : forallb (fun m => mem_str m (map subject init_py)) submodules = true) by reflexivity.
      rewrite forallb_forall in E. apply mem_str_In. now apply E.
    + unfold covered. intros [<-|[<-|[<-|[]]]]; contradiction.
Qed.
End Names.

Print Assumptions C95_time_refuted.
Print Assumptions C95_time_renamed.
Print Assumptions C95_time_class.
Print Assumptions C95_time_attribute.
Print Assumptions C95_eop.
Print Assumptions C95_wrappers.
Print Assumptions C95_compute_corrections.
Print Assumptions C95_same_choice.
Print Assumptions C95_package.

(** Concrete cases: a package holding the names listed, whose functions return their own name and the
    number of their arguments. *)
Definition a_package (n : string) : bool := mem_str n
  (needed_by_time ++ targets_of_time ++ needed_by_eop ++ targets_of_eop ++ needed_by_corrections)%list.
Definition an_answer (n : string) (a : args string) : res string :=
  if Nat.eqb (List.length (positional a) + List.length (named a)) 0 then Err TypeError
  else Ok (n ++ " of " ++ String.concat "," (positional a ++ map snd (named a))%list).
Definition ask := call a_package string an_answer "None" (fun s => Some s) false "ocean".
Lemma a_package_needed l : forallb a_package l = true -> installed a_package l.
Proof. intros H n I. rewrite forallb_forall in H. now apply H. Qed.

Example C95_case_time : installed a_package needed_by_time /\ installed a_package targets_of_time /\
  a_package "timescale.time.Timescale.time" = false /\
  ask time_py "parse" (Args ["2000-01-01"] []) = Err AttributeError /\
  ask (time_module "Timescale") "parse" (Args ["2000-01-01"] []) = Ok "timescale.time.parse of 2000-01-01" /\
  ask time_py "convert_julian" (Args ["2451545"] [("format", "tuple")]) = Err AttributeError /\
  ask time_py "timescale" (Args [] [("MJD", "51544")]) = Ok "timescale.time.Timescale of 51544".
Proof. split; [now apply a_package_needed|]. split; [now apply a_package_needed|]. repeat split. Qed.
Example C95_case_eop : installed a_package needed_by_eop /\ installed a_package targets_of_eop /\
  ask eop_py "iers_mean_pole" (Args ["2000"] [("convention", "2018")]) = Ok "timescale.eop.iers_mean_pole of 2000,2018" /\
  ask eop_py "update_mean_pole" (Args [] [("verbose", "True")]) = Ok "None" /\
  ask eop_py "iers_daily_EOP" (Args ["file"] []) = Err TypeError.
Proof. split; [now apply a_package_needed|]. split; [now apply a_package_needed|]. repeat split. Qed.
Example C95_case_corrections : installed a_package needed_by_corrections /\
  ask corrections_py "compute_corrections" (Args ["x"; "y"; "t"; "lPeT"] [("EPSG", "3031")]) = Ok "pyTMD.compute.LPET_elevations of x,y,t,3031" /\
  ask corrections_py "compute_corrections" (Args ["x"; "y"; "t"] [("EPSG", "3031"); ("CORRECTION", "SET"); ("TYPE", "drift")]) =
    Ok "pyTMD.compute.SET_displacements of x,y,t,3031,drift" /\
  ask corrections_py "compute_corrections" (Args ["x"; "y"; "t"; "tide"] []) = Err ValueError /\
  ask corrections_py "compute_corrections" (Args ["x"; "y"] []) = Err TypeError /\
  ask corrections_py "compute_LPT_corrections" (Args ["x"; "y"; "t"] []) = Ok "pyTMD.compute.LPT_displacements of x,y,t" /\
  ask check_points_py "check_points" (Args ["x"; "y"] []) = Ok "pyTMD.compute.tide_masks of x,y".
Proof. split; [now apply a_package_needed|]. repeat split. Qed.
(** the imports at the head of compute.py, spatial.py and predict.py *)
Definition some_loads (m : string) : list string :=
  if String.eqb m "compute" then ["utilities"; "crs"; "io"; "predict"; "spatial"] else if String.eqb m "spatial" then ["crs"; "version"] else [].
Example C95_case_package : (forall m x, In x (some_loads m) -> In x submodules) /\
  lookup "crs" (bound (package_init some_loads [Load "compute"])) = Some (Submodule "crs") /\
  lookup "crs" (bound (package_init some_loads init_py)) = Some (Member "crs" "crs").
Proof.
  split; [|split; reflexivity]. intros m x. unfold some_loads. destruct (String.eqb m "compute"); [cbn; tauto|].
  destruct (String.eqb m "spatial"); cbn; tauto.
Qed.
