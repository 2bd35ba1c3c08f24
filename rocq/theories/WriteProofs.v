(** Lemmas on dictionaries, heaps and the loops of the writers. *)
From Coq Require Import String List ZArith Bool Lia.
From Verif Require Import PyBase StrBase WriteModel WriteSpec.
Import ListNotations.
Open Scope nat_scope.
Open Scope string_scope.

Lemma eqb_sym' a b : String.eqb a b = String.eqb b a.
Proof. apply String.eqb_sym. Qed.
Section D.
  Context {A : Type}.
  Implicit Types d : list (string * A).
  Lemma get_In k d a : get k d = Some a -> In (k, a) d.
  Proof.
    induction d as [|[k' a'] d IH]; cbn; [discriminate|]. destruct (String.eqb k k') eqn:E; auto.
    apply String.eqb_eq in E as ->. intros [= ->]. now left.
  Qed.
  Lemma get_None k d : get k d = None <-> ~ In k (map fst d).
  Proof.
    induction d as [|[k' a'] d IH]; cbn; [tauto|]. destruct (String.eqb k k') eqn:E.
    - apply String.eqb_eq in E as ->. split; [discriminate|]. intros []. now left.
    - apply String.eqb_neq in E. rewrite IH. split; intuition congruence.
  Qed.
  Lemma get_key k d a : get k d = Some a -> In k (map fst d).
  Proof. intros H%get_In. apply (in_map fst) in H. exact H. Qed.
  Lemma get_put k k' a d : get k (put k' a d) = if String.eqb k k' then Some a else get k d.
  Proof.
    induction d as [|[k1 a1] d IH]; cbn.
    - destruct (String.eqb k k'); auto.
    - destruct (String.eqb k' k1) eqn:E; cbn.
      + apply String.eqb_eq in E as ->. now destruct (String.eqb k k1).
      + rewrite IH. destruct (String.eqb k k1) eqn:E1; auto. apply String.eqb_eq in E1 as ->. rewrite String.eqb_sym, E. reflexivity.
  Qed.
  Lemma put_new k a d : ~ In k (map fst d) -> put k a d = (d ++ [(k, a)])%list.
  Proof.
    induction d as [|[k1 a1] d IH]; cbn; auto. intros H. destruct (String.eqb k k1) eqn:E.
    - apply String.eqb_eq in E as ->. tauto.
    - rewrite IH; tauto.
  Qed.
  Lemma update_app d e : NoDup (map fst e) -> (forall k, In k (map fst e) -> ~ In k (map fst d)) -> update d e = (d ++ e)%list.
  Proof.
    revert d. induction e as [|[k a] e IH]; intros d N H; cbn; [now rewrite app_nil_r|].
    cbn in N. inversion N; subst. rewrite put_new by (apply H; now left).
    unfold update in IH. rewrite IH; auto.
    - now rewrite <- app_assoc.
    - intros k' Hk'. rewrite map_app, in_app_iff. cbn. intros [X|[<-|[]]]; [|tauto]. apply (H k'); auto. now right.
  Qed.
  Lemma update_nil (e : list (string * A)) : proper e -> update [] e = e.
  Proof. intros N. rewrite update_app; auto. Qed.
  Lemma del_without k d : proper d -> del k d = without k d.
  Proof.
    unfold without, proper. induction d as [|[k' a] d IH]; cbn; auto. intros N. inversion N; subst.
    rewrite (String.eqb_sym k' k). destruct (String.eqb k k') eqn:E; cbn.
    - apply String.eqb_eq in E as ->. clear - H1. induction d as [|[k1 a1] d IH]; cbn; auto. cbn in H1.
      destruct (String.eqb k1 k') eqn:E1; cbn.
      + apply String.eqb_eq in E1. subst. tauto.
      + rewrite <- IH; tauto.
    - now rewrite IH.
  Qed.
  Lemma without_keys k k' d : In k' (map fst (without k d)) <-> In k' (map fst d) /\ k' <> k.
  Proof.
    unfold without. induction d as [|[k1 a1] d IH]; cbn; [tauto|]. destruct (String.eqb k1 k) eqn:E; cbn; rewrite IH.
    - apply String.eqb_eq in E as ->. intuition congruence.
    - apply String.eqb_neq in E. intuition congruence.
  Qed.
  Lemma proper_without k d : proper d -> proper (without k d).
  Proof.
    unfold proper. induction d as [|[k1 a1] d IH]; cbn; auto. intros N. inversion N; subst.
    destruct (String.eqb k1 k); cbn; auto. constructor; auto. fold (without k d). rewrite without_keys. tauto.
  Qed.
  Lemma get_without k k' d : get k' (without k d) = if String.eqb k' k then None else get k' d.
  Proof.
    unfold without. induction d as [|[k1 a1] d IH]; cbn; [now destruct (String.eqb k' k)|].
    destruct (String.eqb k1 k) eqn:E; cbn.
    - rewrite IH. apply String.eqb_eq in E as ->. now destruct (String.eqb k' k).
    - rewrite IH. destruct (String.eqb k' k1) eqn:E2; auto. apply String.eqb_eq in E2 as ->. now rewrite E.
  Qed.
  Lemma without_absent k d : get k d = None -> without k d = d.
  Proof.
    unfold without. induction d as [|[k1 a1] d IH]; cbn; auto. rewrite (String.eqb_sym k k1). destruct (String.eqb k1 k); cbn; [discriminate|].
    intros H. now rewrite IH.
  Qed.
  Lemma without_twice k d : without k (without k d) = without k d.
  Proof. apply without_absent. rewrite get_without, String.eqb_refl. reflexivity. Qed.
End D.

(** ** The heap *)
Lemma set_length h r d : List.length (set_ref h r d) = List.length h.
Proof. revert r. induction h as [|x h IH]; intros [|r]; cbn; auto. Qed.
Lemma nth_set h r d j : nth j (set_ref h r d) [] = if Nat.eqb j r then (if Nat.ltb r (List.length h) then d else []) else nth j h [].
Proof.
  revert r j. induction h as [|x h IH]; intros [|r] [|j]; cbn; auto.
  - now destruct (Nat.eqb j r).
  - rewrite IH. destruct (Nat.eqb j r); auto.
Qed.
Lemma set_same h r : r < List.length h -> set_ref h r (nth r h []) = h.
Proof. revert r. induction h as [|x h IH]; intros [|r] H; cbn in *; auto; try lia. rewrite IH; auto. lia. Qed.
Lemma nth_stripped refs h j : j < List.length h ->
  nth j (stripped refs h) [] = if existsb (Nat.eqb j) refs then without "_FillValue" (nth j h []) else nth j h [].
Proof.
  intros H. unfold stripped.
  set (F := fun q : nat * dict => if existsb (Nat.eqb (fst q)) refs then without "_FillValue" (snd q) else snd q).
  assert (L : List.length (combine (seq 0 (List.length h)) h) = List.length h) by (rewrite combine_length, seq_length; lia).
  rewrite (nth_indep _ [] (F (0, []))) by (rewrite map_length, L; auto).
  rewrite map_nth. rewrite combine_nth by now rewrite seq_length. rewrite seq_nth by auto. unfold F. cbn [fst snd]. reflexivity.
Qed.
Lemma stripped_length refs h : List.length (stripped refs h) = List.length h.
Proof. unfold stripped. rewrite map_length, combine_length, seq_length. lia. Qed.
Lemma heap_ext (h h' : heap) : List.length h = List.length h' -> (forall j, j < List.length h -> nth j h [] = nth j h' []) -> h = h'.
Proof. intros L H. apply (nth_ext h h' [] []); auto. Qed.

(** One dictionary may lose its fill value; nothing else ever changes. *)
Definition lost_only (h h' : heap) : Prop := List.length h' = List.length h /\
  forall j, nth j h' [] = nth j h [] \/ nth j h' [] = without "_FillValue" (nth j h []).
Lemma nth_proper h j : Forall (@proper aval) h -> proper (nth j h []).
Proof.
  intros H. destruct (nth_in_or_default j h []) as [I|E].
  - rewrite Forall_forall in H. now apply H.
  - rewrite E. constructor.
Qed.
Lemma lost_proper h h' : lost_only h h' -> Forall (@proper aval) h -> Forall (@proper aval) h'.
Proof.
  intros [L H] P. apply Forall_forall. intros d I. apply (In_nth _ _ []) in I as (j & Hj & <-).
  destruct (H j) as [-> | ->]; [|apply proper_without]; now apply nth_proper.
Qed.
Lemma lost_refl h : lost_only h h.
Proof. split; auto. Qed.
Lemma lost_trans h1 h2 h3 : lost_only h1 h2 -> lost_only h2 h3 -> lost_only h1 h3.
Proof.
  intros [L1 H1] [L2 H2]. split; [congruence|]. intros j.
  destruct (H2 j) as [-> | ->], (H1 j) as [-> | ->]; auto. right. apply without_twice.
Qed.
Lemma lost_del h r : Forall (@proper aval) h -> lost_only h (set_ref h r (del "_FillValue" (at_ref h r))).
Proof.
  intros P. split; [apply set_length|]. intros j. rewrite nth_set. destruct (Nat.eqb j r) eqn:E; auto. apply Nat.eqb_eq in E as ->.
  unfold at_ref. rewrite del_without by now apply nth_proper. destruct (Nat.ltb r (List.length h)) eqn:L; auto.
  apply Nat.ltb_ge in L. left. symmetry. now apply nth_overflow.
Qed.

(** ** The netCDF loop *)
Lemma write_var_lost fdims choose attributes h f key val : Forall (@proper aval) h ->
  lost_only h (fst (write_var fdims choose attributes h f key val)).
Proof.
  intros P. unfold write_var. destruct (get key (nc_vars f)); destruct (get key attributes); cbn [fst]; auto using lost_refl.
  destruct (get "_FillValue" _); cbn [fst]; auto using lost_refl, lost_del.
Qed.
Lemma write_vars_lost fdims choose attributes output : forall h f, Forall (@proper aval) h ->
  lost_only h (fst (write_vars fdims choose attributes h f output)).
Proof.
  induction output as [|[key val] output IH]; intros h f P; cbn [write_vars]; [apply lost_refl|].
  pose proof (write_var_lost fdims choose attributes h f key val P) as L.
  destruct (write_var _ _ _ h f key val) as [h' [f'|e]]; cbn [fst] in *; auto.
  apply lost_trans with h'; auto. apply IH. now apply lost_proper with h.
Qed.

Lemma in_keys {A} k (l : list (string * A)) : In k (map fst l) <-> exists a, In (k, a) l.
Proof.
  rewrite in_map_iff. split.
  - intros ([k' a] & <- & I). eauto.
  - intros [a I]. exists (k, a). auto.
Qed.
Lemma assign_ok f v a : map (dim_size f) (nv_dims v) = shape a ->
  assign f v a = Ok (NcVar (nv_dims v) (nv_fill v) (map (stored (fill_of (nv_fill v))) (cells a)) (nv_attrs v)).
Proof. intros E. unfold assign. rewrite E. destruct (list_eq_dec Nat.eq_dec (shape a) (shape a)); [reflexivity|congruence]. Qed.
Lemma strip_one h r : r < List.length h -> proper (nth r h []) ->
  set_ref h r (del "_FillValue" (nth r h [])) = stripped [r] h.
Proof.
  intros Hr P. apply heap_ext; [now rewrite set_length, stripped_length|]. intros j Hj. rewrite set_length in Hj.
  rewrite nth_set, nth_stripped by auto. cbn [existsb]. rewrite orb_false_r. destruct (Nat.eqb j r) eqn:E; auto.
  apply Nat.eqb_eq in E as ->. apply Nat.ltb_lt in Hr. rewrite Hr. now apply del_without.
Qed.
Lemma strip_none h r : get "_FillValue" (nth r h []) = None -> h = stripped [r] h.
Proof.
  intros G. apply heap_ext; [now rewrite stripped_length|]. intros j Hj. rewrite nth_stripped by auto. cbn [existsb]. rewrite orb_false_r.
  destruct (Nat.eqb j r) eqn:E; auto. apply Nat.eqb_eq in E as ->. symmetry. now apply without_absent.
Qed.
Lemma strip_app refs refs' h : stripped refs (stripped refs' h) = stripped (refs' ++ refs) h.
Proof.
  apply heap_ext; [now rewrite !stripped_length|]. intros j Hj. rewrite !stripped_length in Hj.
  rewrite !nth_stripped, existsb_app by (rewrite ?stripped_length; auto).
  destruct (existsb (Nat.eqb j) refs), (existsb (Nat.eqb j) refs'); cbn; auto. apply without_twice.
Qed.

Lemma write_vars_ok fdims choose attributes ref output : forall h f,
  NoDup (map fst output) -> separate attributes h output ref ->
  (forall k, In k (map fst output) -> ~ In k (map fst (nc_vars f))) ->
  (forall k a, In (k, a) output -> map (dim_size f) (if get "_FillValue" (nth (ref k) h []) then fdims else choose a) = shape a) ->
  write_vars fdims choose attributes h f output =
  (stripped (map ref (map fst output)) h,
   Ok (NcFile (nc_dims f)
        (nc_vars f ++ map (fun q => (fst q, variable (if get "_FillValue" (nth (ref (fst q)) h []) then fdims else choose (snd q)) (snd q) (nth (ref (fst q)) h []))) output)
        (nc_attrs f)))%list.
Proof.
  induction output as [|[k a] output IH]; intros h f N [S1 S2] F C.
  - cbn. rewrite app_nil_r. destruct f. cbn. f_equal. apply heap_ext; [now rewrite stripped_length|]. intros j Hj. now rewrite nth_stripped.
  - cbn [map fst] in N. inversion N as [|? ? Nk N']; subst.
    destruct (S1 k) as (Ga & Hr & Pd); [now left|]. set (r := ref k) in *. set (d := nth r h []) in *.
    assert (Gn : get k (nc_vars f) = None) by (apply get_None; apply F; now left).
    assert (W : write_var fdims choose attributes h f k a =
      (stripped [r] h, Ok (NcFile (nc_dims f) (nc_vars f ++ [(k, variable (if get "_FillValue" d then fdims else choose a) a d)]) (nc_attrs f)))%list).
    { unfold write_var. rewrite Gn, Ga. change (at_ref h r) with d.
      pose proof (C k a (or_introl eq_refl)) as Ck. fold r d in Ck. destruct (get "_FillValue" d) as [fv|] eqn:G.
      - unfold d. rewrite (strip_one h r Hr Pd). fold d. rewrite assign_ok by exact Ck. cbn [bind nv_dims nv_fill nv_attrs].
        unfold set_attrs. unfold at_ref. rewrite nth_stripped by auto. cbn [existsb]. rewrite Nat.eqb_refl. cbn [orb]. fold d.
        unfold has. rewrite get_without, String.eqb_refl. cbn [bind nv_dims nv_fill nv_attrs nv_data].
        rewrite update_nil by now apply proper_without. rewrite put_new by (apply F; now left). unfold variable, fill_value. rewrite G. reflexivity.
      - rewrite assign_ok by exact Ck. cbn [bind nv_dims nv_fill nv_attrs]. unfold set_attrs. unfold at_ref. fold d. unfold has. rewrite G.
        cbn [bind nv_dims nv_fill nv_attrs nv_data]. rewrite update_nil by auto. rewrite put_new by (apply F; now left).
        rewrite (strip_none h r G) at 1. unfold variable, fill_value. rewrite G, without_absent by auto. reflexivity. }
    cbn [write_vars]. rewrite W.
    assert (D : forall k', In k' (map fst output) -> nth (ref k') (stripped [r] h) [] = nth (ref k') h []).
    { intros k' Hk'. destruct (S1 k') as (_ & Hr' & _); [now right|]. rewrite nth_stripped by auto. cbn [existsb]. rewrite orb_false_r.
      destruct (Nat.eqb (ref k') r) eqn:E; auto. apply Nat.eqb_eq in E. exfalso. apply Nk.
      rewrite <- (S2 k' k); auto; [now right|now left]. }
    rewrite IH.
    + rewrite strip_app. cbn [map fst snd]. change (r :: map ref (map fst output)) with ([r] ++ map ref (map fst output))%list.
      f_equal. f_equal. cbn [nc_dims nc_vars nc_attrs]. f_equal. rewrite <- app_assoc. f_equal. cbn [app]. f_equal.
      apply map_ext_in. intros [k' a'] I. cbn [fst snd]. rewrite D; auto. apply in_keys. eauto.
    + exact N'.
    + split.
      * intros k' Hk'. destruct (S1 k') as (G' & Hr' & P'); [now right|]. rewrite stripped_length, D; auto.
      * intros j k' Hj Hk'. apply S2; now right.
    + intros k' Hk'. cbn [nc_vars]. rewrite map_app, in_app_iff. cbn. intros [X|[->|[]]]; auto. apply (F k'); auto. now right.
    + intros k' a' I. cbn [nc_dims]. assert (I' : In k' (map fst output)) by (apply in_keys; eauto). rewrite D by auto.
      change (dim_size _) with (dim_size f). apply C. now right.
Qed.

Lemma update_over (d e : dict) : proper e -> over e d (update d e).
Proof.
  unfold over, proper. revert d. induction e as [|[k a] e IH]; intros d N k'; cbn; auto. inversion N; subst.
  unfold update in IH. rewrite IH by auto. rewrite get_put. cbn [fst snd]. destruct (get k' e) eqn:G.
  - destruct (String.eqb k' k) eqn:E; auto. apply String.eqb_eq in E as ->. apply get_key in G. contradiction.
  - now destruct (String.eqb k' k).
Qed.
Lemma update_nil_over (d : dict) : over [] d d.
Proof. intros k. reflexivity. Qed.

Lemma prefix_spec p s : prefix p s = true <-> exists t, s = (p ++ t)%string.
Proof.
  revert s. induction p as [|a p IH]; intros s; cbn [prefix].
  - split; auto. intros _. exists s. reflexivity.
  - destruct s as [|b s].
    + split; [discriminate|]. intros [t H]. discriminate.
    + rewrite andb_true_iff, Ascii.eqb_eq, IH. split.
      * intros [-> [t ->]]. exists t. reflexivity.
      * intros [t H]. cbn in H. injection H as -> ->. eauto.
Qed.
Lemma matches_starts p s : matches p s = true <-> starts p s.
Proof. apply prefix_spec. Qed.

(** ** HDF5 *)
Lemma write_h5_lost attributes h made f key val : Forall (@proper aval) h ->
  lost_only h (fst (write_h5 attributes h made f key val)).
Proof.
  intros P. unfold write_h5. destruct (get key (h5_vars f)) as [v|].
  - destruct (shape val); cbn [fst]; auto using lost_refl. destruct (list_eq_dec _ _ _).
    + destruct (get key attributes); cbn [fst]; auto using lost_refl.
    + destruct (map fst (cells val)) as [|x [|]]; cbn [fst]; auto using lost_refl. destruct (get key attributes); cbn [fst]; auto using lost_refl.
  - destruct (get key attributes); cbn [fst]; auto using lost_refl.
    destruct (get "_FillValue" _); [destruct (shape val)|]; cbn [fst]; auto using lost_refl, lost_del.
Qed.
Lemma write_h5s_lost attributes output : forall h made f, Forall (@proper aval) h ->
  lost_only h (fst (write_h5s attributes h made f output)).
Proof.
  induction output as [|[key val] output IH]; intros h made f P; cbn [write_h5s]; [apply lost_refl|].
  pose proof (write_h5_lost attributes h made f key val P) as L.
  destruct (write_h5 _ h made f key val) as [h' [[made' f']|e]]; cbn [fst] in *; auto.
  apply lost_trans with h'; auto. apply IH. now apply lost_proper with h.
Qed.
Lemma h5_finish {made key h r d v f} : proper d -> at_ref h r = d -> ~ In key (map fst (h5_vars f)) -> hv_attrs v = [] ->
  match at_ref h r with
  | [] => Ok (key :: made, H5File (put key v (h5_vars f)) (h5_attrs f))
  | _ => if mem_str key (key :: made)
         then Ok (key :: made, H5File (put key (H5Var (hv_shape v) (hv_data v) (update (hv_attrs v) (at_ref h r))) (h5_vars f)) (h5_attrs f))
         else Err KeyError
  end = Ok (key :: made, H5File (h5_vars f ++ [(key, H5Var (hv_shape v) (hv_data v) d)]) (h5_attrs f))%list.
Proof.
  intros P E N A. rewrite E, A, update_nil by auto. rewrite !put_new by auto.
  assert (M : mem_str key (key :: made) = true) by (apply mem_str_In; now left). rewrite M.
  destruct d; auto. destruct v. cbn in *. now subst.
Qed.
Lemma write_h5s_ok attributes ref output : forall h made f,
  NoDup (map fst output) -> separate attributes h output ref ->
  (forall k, In k (map fst output) -> ~ In k (map fst (h5_vars f))) ->
  (forall k a, In (k, a) output -> shape a = [] -> get "_FillValue" (nth (ref k) h []) = None) ->
  write_h5s attributes h made f output =
  (stripped (map ref (map fst output)) h,
   Ok (H5File (h5_vars f ++ map (fun q => (fst q, h5_variable (snd q) (nth (ref (fst q)) h []))) output) (h5_attrs f)))%list.
Proof.
  induction output as [|[k a] output IH]; intros h made f N [S1 S2] F C.
  - cbn. rewrite app_nil_r. destruct f. cbn. f_equal. apply heap_ext; [now rewrite stripped_length|]. intros j Hj. now rewrite nth_stripped.
  - cbn [map fst] in N. inversion N as [|? ? Nk N']; subst.
    destruct (S1 k) as (Ga & Hr & Pd); [now left|]. set (r := ref k) in *. set (d := nth r h []) in *.
    assert (Fk : ~ In k (map fst (h5_vars f))) by (apply F; now left).
    assert (Gn : get k (h5_vars f) = None) by now apply get_None.
    assert (W : exists made', write_h5 attributes h made f k a =
      (stripped [r] h, Ok (made', H5File (h5_vars f ++ [(k, h5_variable a d)]) (h5_attrs f)))%list).
    { exists (k :: made). unfold write_h5. rewrite Gn, Ga. change (at_ref h r) with d.
      destruct (get "_FillValue" d) as [fv|] eqn:G.
      - pose proof (C k a (or_introl eq_refl)) as Ck. fold r d in Ck. unfold h5_variable.
        destruct (shape a) as [|n sh] eqn:Sh; [rewrite G in Ck; specialize (Ck eq_refl); discriminate|].
        unfold d. rewrite (strip_one h r Hr Pd). f_equal. cbv zeta.
        rewrite (h5_finish (d := without "_FillValue" d)); auto.
        + now apply proper_without.
        + unfold at_ref. rewrite nth_stripped by auto. cbn [existsb]. rewrite Nat.eqb_refl. reflexivity.
      - apply f_equal2; [exact (strip_none h r G)|].
        refine (eq_trans (h5_finish (made := made) (key := k) (h := h) (r := r) (d := d)
          (v := H5Var (shape a) (match shape a with [] => [0%Z] | _ => map fst (cells a) end) []) (f := f) Pd eq_refl Fk eq_refl) _).
        unfold h5_variable. rewrite without_absent by auto. reflexivity. }
    destruct W as [made' W]. cbn [write_h5s]. rewrite W.
    assert (D : forall k', In k' (map fst output) -> nth (ref k') (stripped [r] h) [] = nth (ref k') h []).
    { intros k' Hk'. destruct (S1 k') as (_ & Hr' & _); [now right|]. rewrite nth_stripped by auto. cbn [existsb]. rewrite orb_false_r.
      destruct (Nat.eqb (ref k') r) eqn:E; auto. apply Nat.eqb_eq in E. exfalso. apply Nk.
      rewrite <- (S2 k' k); auto; [now right|now left]. }
    rewrite IH.
    + rewrite strip_app. cbn [map fst snd]. change (r :: map ref (map fst output)) with ([r] ++ map ref (map fst output))%list.
      f_equal. f_equal. cbn [h5_vars h5_attrs]. f_equal. rewrite <- app_assoc. f_equal. cbn [app]. f_equal.
      apply map_ext_in. intros [k' a'] I. cbn [fst snd]. rewrite D; auto. apply in_keys. eauto.
    + exact N'.
    + split.
      * intros k' Hk'. destruct (S1 k') as (G' & Hr' & P'); [now right|]. rewrite stripped_length, D; auto.
      * intros j k' Hj Hk'. apply S2; now right.
    + intros k' Hk'. cbn [h5_vars]. rewrite map_app, in_app_iff. cbn. intros [X|[->|[]]]; auto. apply (F k'); auto. now right.
    + intros k' a' I Sh. assert (I' : In k' (map fst output)) by (apply in_keys; eauto). rewrite D by auto. apply (C k' a'); auto. now right.
Qed.

(** ** The reference shape of grids and time series *)
Lemma in_insert s t l : In t (insert s l) <-> t = s \/ In t l.
Proof. induction l as [|x l IH]; cbn; [intuition|]. destruct (String.leb s x); cbn; [intuition|]. rewrite IH. intuition. Qed.
Lemma in_sorted t l : In t (sorted l) <-> In t l.
Proof. unfold sorted. induction l as [|x l IH]; cbn; [tauto|]. rewrite in_insert, IH. intuition. Qed.
Lemma get_nodup {A} k (a : A) d : NoDup (map fst d) -> In (k, a) d -> get k d = Some a.
Proof.
  induction d as [|[k' a'] d IH]; cbn; [tauto|]. intros N [E|I]; inversion N; subst.
  - injection E as -> ->. now rewrite String.eqb_refl.
  - destruct (String.eqb k k') eqn:E; auto. apply String.eqb_eq in E as ->. exfalso. apply H1. apply in_keys. eauto.
Qed.
Lemma field_iff output k : In k (fields output) <-> In k (map fst output) /\ ~ coordinate k.
Proof.
  unfold fields. rewrite in_sorted, filter_In, andb_true_iff, !negb_true_iff, !mem_str_false.
  unfold coordinate. change ["t"; "time"; "lon"; "longitude"; "x"; "lat"; "latitude"; "y"; "crs"; "crs_wkt"; "crs_proj4"; "projection"]
    with (coordinate_names ++ crs_names)%list. rewrite in_app_iff. tauto.
Qed.
Lemma reference_ok n output sh : NoDup (map fst output) ->
  (exists k a, In (k, a) output /\ ~ coordinate k /\ List.length (shape a) = n) ->
  (forall k a, In (k, a) output -> ~ coordinate k -> List.length (shape a) = n -> shape a = sh) ->
  reference n output = Ok sh.
Proof.
  intros N (k & a & I & Nc & L) H. unfold reference.
  set (l := map _ (fields output)).
  assert (In1 : In (shape a) (filter (fun sh => Nat.eqb (List.length sh) n) l)).
  { apply filter_In. split; [|now apply Nat.eqb_eq]. apply in_map_iff. exists k. split; [now rewrite (get_nodup k a)|].
    apply field_iff. split; auto. apply in_keys. eauto. }
  destruct (filter _ l) as [|s rest] eqn:E; [destruct In1|].
  assert (In2 : In s (filter (fun sh => Nat.eqb (List.length sh) n) l)) by (rewrite E; now left).
  apply filter_In in In2 as [I2 L2]. apply Nat.eqb_eq in L2. unfold l in I2. apply in_map_iff in I2 as (k' & Es & F').
  apply field_iff in F' as [K' Nc']. apply in_keys in K' as [a' Ia']. rewrite (get_nodup k' a') in Es by auto. subst s. f_equal. now apply (H k').
Qed.
