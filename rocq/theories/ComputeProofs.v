(** Shapes of requests and of output arrays. *)
From Coq Require Import Reals Lra Lia String List Bool ZArith Arith.
From Verif Require Import PyBase RBase StrBase MathModel AstroModel EarthModel ComputeModel ComputeSpec.
Import ListNotations.
Open Scope nat_scope.
Open Scope string_scope.

Lemma mapM_ok {A B} (f : A -> res B) (g : A -> B) l : (forall a, In a l -> f a = Ok (g a)) -> mapM f l = Ok (map g l).
Proof.
  induction l as [|a l IH]; intros H; [reflexivity|]. cbn. rewrite (H a (or_introl eq_refl)). cbn.
  rewrite IH by (intros b Hb; apply H; right; exact Hb). reflexivity.
Qed.
Lemma mapM_item {A B} (f : nat -> res B) (g : A -> B) (l : list A) : forall k,
  (forall s a, nth_error l s = Some a -> f (k + s) = Ok (g a)) -> mapM f (seq k (List.length l)) = Ok (map g l).
Proof.
  induction l as [|a l IH]; intros k H; [reflexivity|]. cbn [List.length seq mapM map].
  pose proof (H 0 a eq_refl) as H0. rewrite Nat.add_0_r in H0. rewrite H0. cbn [bind].
  rewrite (IH (S k)); [reflexivity|]. intros s b Hb. specialize (H (S s) b Hb). rewrite Nat.add_succ_r in H. exact H.
Qed.

Lemma item_nth {A} (l : list A) s a : nth_error l s = Some a -> item l s = Ok a.
Proof. unfold item. intros ->. reflexivity. Qed.

Lemma chunks_map {A B} (h : A -> B) ny nx l : chunks ny nx (map h l) = map (map h) (chunks ny nx l).
Proof.
  revert l. induction ny as [|ny IH]; intros l; [reflexivity|]. cbn. rewrite <- IH, firstn_map, skipn_map. reflexivity.
Qed.
Lemma chunks_concat {A} nx (L : list (list A)) : Forall (fun r => List.length r = nx) L ->
  chunks (List.length L) nx (concat L) = L.
Proof.
  induction 1 as [|r L H HL IH]; [reflexivity|]. cbn. subst nx.
  rewrite firstn_app, firstn_all, Nat.sub_diag, skipn_app, skipn_all, Nat.sub_diag. cbn. rewrite app_nil_r, IH. reflexivity.
Qed.
Lemma concat_length {A} nx (L : list (list A)) : Forall (fun r => List.length r = nx) L ->
  List.length (concat L) = List.length L * nx.
Proof. induction 1 as [|r L H HL IH]; [reflexivity|]. cbn. rewrite app_length, IH, H. lia. Qed.
Lemma concat_combine {A B} nx (X : list (list A)) (Y : list (list B)) :
  Forall (fun r => List.length r = nx) X -> Forall (fun r => List.length r = nx) Y -> List.length X = List.length Y ->
  combine (concat X) (concat Y) = concat (map (fun q => combine (fst q) (snd q)) (combine X Y)).
Proof.
  intros HX. revert Y. induction HX as [|x X H HX IH]; intros Y HY E; [reflexivity|].
  destruct HY as [|y Y H' HY]; [discriminate|]. cbn. rewrite <- IH by (try assumption; cbn in E; lia).
  assert (G : List.length x = List.length y) by lia. clear -G. revert y G.
  induction x as [|a x IH]; intros [|b y] G; cbn in *; try lia; [reflexivity|]. rewrite IH by lia. reflexivity.
Qed.

Lemma map_seq_nth {A B} (F : A -> B) (l : list A) d : map (fun i => F (nth i l d)) (seq 0 (List.length l)) = map F l.
Proof.
  induction l as [|a l IH]; [reflexivity|]. cbn [List.length seq map nth]. f_equal.
  rewrite <- seq_shift, map_map. exact IH.
Qed.
Lemma row_of_cube {A P T} (z : A) (g : T -> P -> A) (row : list P) (ts : list T) :
  map (fun c => map (fun t => nth c (map (g t) row) z) ts) (seq 0 (List.length row)) = map (fun p => map (fun t => g t p) ts) row.
Proof.
  induction row as [|p row IH]; [reflexivity|]. cbn [List.length seq map]. f_equal.
  rewrite <- seq_shift, map_map. exact IH.
Qed.
(** Filling an array layer by layer puts the values of each cell in its place *)
Lemma cube_layers {A P T} (z : A) nx (L : list (list P)) (ts : list T) (g : T -> P -> A) :
  Forall (fun r => List.length r = nx) L ->
  cube z (List.length L) nx (map (fun t => chunks (List.length L) nx (map (g t) (concat L))) ts)
  = map (map (fun p => map (fun t => g t p) ts)) L.
Proof.
  intros H. unfold cube.
  rewrite <- (map_seq_nth (map (fun p => map (fun t => g t p) ts)) L []).
  apply map_ext_in. intros r Hr. apply in_seq in Hr. transitivity (map (fun c => map (fun t => nth c (map (g t) (nth r L [])) z) ts) (seq 0 (List.length (nth r L []))));
    [|apply row_of_cube].
  assert (E : List.length (nth r L []) = nx).
  { rewrite Forall_forall in H. apply H, nth_In. lia. }
  rewrite E. apply map_ext. intros c. rewrite map_map. apply map_ext. intros t.
  rewrite chunks_map, chunks_concat by exact H. f_equal. exact (map_nth (map (g t)) L [] r).
Qed.
Lemma reshape_layer {A B} nx (L : list (list B)) (h : B -> A) : Forall (fun r => List.length r = nx) L ->
  reshape (List.length L) nx (map h (concat L)) = Ok (chunks (List.length L) nx (map h (concat L))).
Proof. intros H. unfold reshape. rewrite map_length, (concat_length nx) by exact H. rewrite Nat.eqb_refl. reflexivity. Qed.

Lemma concat_map {A B} (h : A -> B) (L : list (list A)) : concat (map (map h) L) = map h (concat L).
Proof. induction L as [|r L IH]; [reflexivity|]. cbn. rewrite map_app, IH. reflexivity. Qed.

(** ** Requests *)
Section Requests.
  Variable proj : R * R -> R * R.
  Variable clock : string -> R -> stamp.

  Lemma not_empty {T k} : lower T = k -> k <> "" -> T <> "".
  Proof. intros <- H ->. apply H. reflexivity. Qed.
  Lemma kind_given T x y t : T <> "" -> data_kind (Some T) x y t = Ok T.
  Proof. destruct T; [congruence|reflexivity]. Qed.

  Lemma prepare_drift T TIME pts : lower T = "drift" ->
    prepare proj clock (Some T) TIME (C1 (map (fun p => fst (fst p)) pts)) (C1 (map (fun p => snd (fst p)) pts)) (map snd pts)
    = Ok (T, C1 (map (fun p => fst (fst p)) pts), map (fun p => proj (fst p)) pts, map (fun p : R * R * R => clock TIME (snd p)) pts).
  Proof.
    intros H. unfold prepare. rewrite kind_given by (apply (not_empty H); discriminate). cbn [bind].
    rewrite H. cbn [check mem_str existsb type_names String.eqb Ascii.eqb Bool.eqb orb].
    cbn [mem_str]. unfold reform. rewrite H. cbn [String.eqb Ascii.eqb Bool.eqb andb fst snd atleast_1d].
    change (check (mem_str "drift" type_names)) with (Ok tt). cbn [bind].
    unfold locations, size. cbn [flatten]. rewrite !map_length, Nat.eqb_refl. cbn [bind].
    do 2 f_equal; [f_equal|apply map_map].
    induction pts as [|[[u v] w] pts IH]; [reflexivity|]. cbn. rewrite IH. reflexivity.
  Qed.
  Lemma prepare_series T TIME pts ts : lower T = "time series" ->
    prepare proj clock (Some T) TIME (C1 (map fst pts)) (C1 (map snd pts)) ts
    = Ok (T, C1 (map fst pts), map proj pts, map (clock TIME) ts).
  Proof.
    intros H. unfold prepare. rewrite kind_given by (apply (not_empty H); discriminate). cbn [bind].
    rewrite H. change (check (mem_str "time series" type_names)) with (Ok tt). cbn [bind].
    unfold reform. rewrite H. cbn [String.eqb Ascii.eqb Bool.eqb andb fst snd atleast_1d].
    unfold locations, size. cbn [flatten]. rewrite !map_length, Nat.eqb_refl. cbn [bind].
    do 3 f_equal. induction pts as [|[u v] pts IH]; [reflexivity|]. cbn. rewrite IH. reflexivity.
  Qed.
  Lemma prepare_station T TIME u v ts : lower T = "time series" ->
    prepare proj clock (Some T) TIME (C0 u) (C0 v) ts = Ok (T, C1 [u], [proj (u, v)], map (clock TIME) ts).
  Proof.
    intros H. unfold prepare. rewrite kind_given by (apply (not_empty H); discriminate). cbn [bind].
    rewrite H. change (check (mem_str "time series" type_names)) with (Ok tt). cbn [bind].
    unfold reform. rewrite H. reflexivity.
  Qed.
  Lemma prepare_grid T TIME x y P ts : lower T = "grid" -> grid_of x y P ->
    exists nx X, prepare proj clock (Some T) TIME x y ts = Ok (T, C2 X, map proj (concat P), map (clock TIME) ts) /\
      shape2 (C2 X) = Ok (List.length P, nx) /\ Forall (fun r => List.length r = nx) P /\ concat P <> [].
  Proof.
    intros H G. unfold prepare. rewrite kind_given by (apply (not_empty H); discriminate). cbn [bind].
    rewrite H. change (check (mem_str "grid" type_names)) with (Ok tt). cbn [bind].
    unfold reform. rewrite H. cbn [String.eqb Ascii.eqb Bool.eqb andb].
    destruct G as [(xs & ys & -> & -> & E & NX & NY & ->)|(X & Y & nx & -> & -> & E & NX & N0 & HX & HY & ->)].
    - unfold size. cbn [flatten]. apply Nat.eqb_neq in E. rewrite E. cbn [negb meshgrid flatten fst snd].
      exists (List.length xs), (map (fun _ => xs) ys).
      assert (F1 : Forall (fun r : list R => List.length r = List.length xs) (map (fun _ => xs) ys)).
      { apply Forall_map, Forall_forall. reflexivity. }
      assert (F2 : Forall (fun r : list R => List.length r = List.length xs) (map (fun v => map (fun _ => v) xs) ys)).
      { apply Forall_map, Forall_forall. intros; apply map_length. }
      assert (C : map (fun q : list R * list R => combine (fst q) (snd q)) (combine (map (fun _ : R => xs) ys) (map (fun v => map (fun _ => v) xs) ys))
        = map (fun v => map (fun u => (u, v)) xs) ys).
      { clear. induction ys as [|v ys IH]; [reflexivity|]. cbn [map combine fst snd]. rewrite IH. f_equal.
        clear. induction xs as [|u xs IH]; [reflexivity|]. cbn. rewrite IH. reflexivity. }
      split; [|split; [|split]].
      + unfold locations, size. cbn [flatten]. rewrite (concat_length _ _ F1), (concat_length _ _ F2), !map_length, Nat.eqb_refl. cbn [bind].
        rewrite (concat_combine _ _ _ F1 F2) by (rewrite !map_length; reflexivity). rewrite C. reflexivity.
      + cbn [shape2]. rewrite !map_length. destruct ys; [congruence|reflexivity].
      + apply Forall_map, Forall_forall. intros; apply map_length.
      + destruct ys as [|v ys]; [congruence|]. destruct xs as [|u xs]; [congruence|]. discriminate.
    - unfold size. cbn [flatten]. rewrite (concat_length _ _ HX), (concat_length _ _ HY), E, Nat.eqb_refl. cbn [negb atleast_2d fst snd].
      exists nx, X. split; [|split; [|split]].
      + unfold locations, size. cbn [flatten]. rewrite (concat_length _ _ HX), (concat_length _ _ HY), E, Nat.eqb_refl. cbn [bind].
        rewrite (concat_combine _ _ _ HX HY E). reflexivity.
      + cbn [shape2]. rewrite map_length, combine_length, <- E, Nat.min_id. do 2 f_equal.
        destruct HX as [|r X Hr HX]; [congruence|exact Hr].
      + apply Forall_map, Forall_forall. intros [a b] Hab. cbn. rewrite combine_length.
        rewrite Forall_forall in HX, HY. rewrite (HX a), (HY b); [apply Nat.min_id|apply in_combine_r in Hab; exact Hab|apply in_combine_l in Hab; exact Hab].
      + destruct X as [|r X]; [congruence|]. destruct Y as [|r' Y]; [discriminate|].
        inversion HX; inversion HY; subst. destruct r; [cbn in *; lia|]. destruct r'; [cbn in *; lia|]. discriminate.
  Qed.
End Requests.
