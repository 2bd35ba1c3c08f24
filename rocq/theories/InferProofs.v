From Coq Require Import String List Reals Lra Lia Bool Arith.
From Verif Require Import PyBase RBase StrBase PredictModel PredictSpec PredictProofs InferModel InferSpec.
Import ListNotations.
Open Scope R_scope.

(** ** Lookups *)
Lemma positions_shift c cs : forall j, positions c cs j = map (fun i => (j + i)%nat) (positions c cs 0).
Proof.
  induction cs as [|v cs IH]; intros j; cbn; auto.
  rewrite (IH (S j)), (IH 1%nat). destruct (String.eqb (lower v) c); cbn; rewrite !map_map.
  - f_equal; [lia|]. apply map_ext. intros; lia.
  - apply map_ext. intros; lia.
Qed.

Lemma positions_nil c cs : positions c cs 0 = [] <-> ~ In c (map lower cs).
Proof.
  induction cs as [|v cs IH]; cbn; [tauto|].
  rewrite positions_shift. destruct (String.eqb_spec (lower v) c).
  - split; [discriminate|intros H; exfalso; apply H; auto].
  - split.
    + intros H. apply map_eq_nil in H. rewrite IH in H. tauto.
    + intros H. assert (E : positions c cs 0 = []) by (apply IH; tauto). now rewrite E.
Qed.

Lemma positions_one c cs : NoDup (map lower cs) -> In c (map lower cs) ->
  exists j, positions c cs 0 = [j] /\ (j < length cs)%nat /\
    forall (row : list (cpx * bool)), (length cs <= length row)%nat ->
      supplied cs row c = nth j row ((0,0), false).
Proof.
  induction cs as [|v cs IH]; cbn [map In]; intros ND HI; [tauto|].
  inversion ND; subst. cbn [positions]. rewrite positions_shift.
  destruct (String.eqb_spec (lower v) c) as [<-|E].
  - exists 0%nat. assert (E : positions (lower v) cs 0 = []) by now apply positions_nil.
    rewrite E. cbn. split; auto. split; [lia|]. intros [|r row] Hl; [cbn in Hl; lia|].
    unfold supplied. cbn. now rewrite String.eqb_refl.
  - destruct HI as [HI|HI]; [congruence|]. destruct (IH H2 HI) as (j & E1 & E2 & E3).
    exists (S j). rewrite E1. cbn. split; auto. split; [lia|].
    intros [|r row] Hl; [cbn in Hl; lia|]. cbn in Hl.
    unfold supplied. cbn. destruct (String.eqb_spec (lower v) c); [congruence|].
    apply (E3 row). lia.
Qed.

Lemma supplied_absent cs row c : ~ In c (map lower cs) -> supplied cs row c = ((0,0), false).
Proof.
  intros H. unfold supplied. destruct (find _ _) as [p|] eqn:E; auto.
  apply find_some in E. destruct E as [E1 E2]. apply String.eqb_eq in E2. exfalso. apply H.
  rewrite <- E2. apply in_map. destruct p as [a b]. now apply in_combine_l in E1.
Qed.

Lemma lookup_ok cs nc c : NoDup (map lower cs) -> (length cs <= nc)%nat ->
  exists o, lookup cs nc c = Ok o /\
    (o = None <-> ~ In c (map lower cs)) /\
    forall row scale, length row = nc ->
      pick row o scale = (cscale (/ scale) (fst (supplied cs row c)), snd (supplied cs row c)) \/
      (o = None /\ pick row o scale = supplied cs row c).
Proof.
  intros ND HL. unfold lookup. destruct (in_dec string_dec c (map lower cs)) as [HI|HI].
  - destruct (positions_one _ _ ND HI) as (j & E1 & E2 & E3). rewrite E1.
    destruct (Nat.ltb_spec j nc); [|lia]. exists (Some j). split; auto. split; [split; [discriminate|tauto]|].
    intros row scale Hr. left. rewrite E3 by lia. cbn.
    destruct (nth j row _); reflexivity.
  - assert (E : positions c cs 0 = []) by now apply positions_nil. rewrite E. exists None.
    split; auto. split; [tauto|]. intros row scale _. right. split; auto.
    now rewrite supplied_absent.
Qed.

Lemma cscale_zero s : cscale s (0, 0) = (0, 0).
Proof. unfold cscale, cre, cim. cbn. f_equal; ring. Qed.

Lemma lookup_pick cs nc c : NoDup (map lower cs) -> (length cs <= nc)%nat ->
  exists o, lookup cs nc c = Ok o /\
    (o = None <-> ~ In c (map lower cs)) /\
    forall row scale, length row = nc ->
      pick row o scale = (cscale (/ scale) (fst (supplied cs row c)), snd (supplied cs row c)).
Proof.
  intros ND HL. destruct (lookup_ok cs nc c ND HL) as (o & E & Hn & H). exists o.
  split; auto. split; auto. intros row scale Hr. destruct (H row scale Hr) as [H'|[-> H']]; auto.
  rewrite H'. rewrite supplied_absent by (now apply Hn). cbn. now rewrite cscale_zero.
Qed.

(** All lookups of a list of majors. *)
Lemma lookups_ok cs nc l : NoDup (map lower cs) -> (length cs <= nc)%nat ->
  exists cols, mapM (lookup cs nc) l = Ok cols /\ found cols = n_present cs l /\
    length cols = length l /\
    forall row i scale, length row = nc -> (i < length l)%nat ->
      pick row (nth i cols None) scale =
      (cscale (/ scale) (fst (supplied cs row (nth i l EmptyString))), snd (supplied cs row (nth i l EmptyString))).
Proof.
  intros ND HL. induction l as [|c l IH].
  - exists []. repeat split; auto. intros. cbn in *. lia.
  - destruct IH as (cols & E1 & E2 & E3 & E4).
    destruct (lookup_pick cs nc c ND HL) as (o & F1 & F2 & F3).
    exists (o :: cols). cbn. rewrite F1, E1. cbn. split; auto. split; [|split; [lia|]].
    + unfold found, n_present in *. cbn.
      destruct o; destruct (mem_str c (map lower cs)) eqn:M; cbn; rewrite ?E2; auto.
      * apply mem_str_false in M. apply F2 in M. discriminate.
      * apply mem_str_In in M. exfalso. now apply F2.
    + intros row [|i] scale Hr Hi; cbn; [now apply F3|]. apply E4; auto. cbn in Hi. lia.
Qed.

(** ** Selection *)
Lemma select_wanted cs minor names : select cs (requested minor names) names 0 = wanted_idx cs minor names.
Proof.
  unfold wanted_idx.
  set (f := fun m => negb (mem_str m cs) && match minor with None | Some [] => true | Some l => mem_str m l end).
  assert (G : forall l i, (forall m, In m l -> In m names) ->
     select cs (requested minor names) l i =
     filter (fun k => f (nth (k - i) l EmptyString)) (seq i (length l))).
  { induction l as [|m l IH]; intros i Hin; [reflexivity|].
    assert (Em : negb (mem_str m cs) && mem_str m (requested minor names) = f m).
    { unfold f. f_equal. unfold requested. destruct minor as [[|x l']|]; auto.
      - apply mem_str_In, Hin. now left.
      - apply mem_str_In, Hin. now left. }
    cbn [length seq filter select]. rewrite Em, Nat.sub_diag. cbn [nth].
    rewrite (IH (S i)) by (intros; apply Hin; now right).
    assert (E : filter (fun k => f (nth (k - S i) l EmptyString)) (seq (S i) (length l)) =
                filter (fun k => f (nth (k - i) (m :: l) EmptyString)) (seq (S i) (length l))).
    { apply filter_ext_in. intros k Hk. apply in_seq in Hk.
      replace (k - i)%nat with (S (k - S i)) by lia. reflexivity. }
    rewrite E. destruct (f m); reflexivity. }
  rewrite G by auto. apply filter_ext. intros k. now rewrite Nat.sub_0_r.
Qed.

Lemma in_wanted_idx cs minor names k : In k (wanted_idx cs minor names) <->
  (k < length names)%nat /\ wanted cs minor names (nth k names EmptyString).
Proof.
  unfold wanted_idx, wanted. rewrite filter_In, in_seq, andb_true_iff, negb_true_iff, mem_str_false.
  split.
  - intros (H1 & H2 & H3). split; [lia|]. split; [apply nth_In; lia|]. split; auto.
    destruct minor as [[|x l]|]; auto. now apply mem_str_In.
  - intros (H1 & _ & H2 & H3). split; [lia|]. split; auto.
    destruct minor as [[|x l]|]; auto. now apply mem_str_In.
Qed.

Lemma np_any_spec l : np_any l = true <-> exists k, In k l /\ k <> 0%nat.
Proof.
  unfold np_any. rewrite existsb_exists. split; intros (k & H1 & H2); exists k; split; auto.
  - apply negb_true_iff, Nat.eqb_neq in H2. auto.
  - now apply negb_true_iff, Nat.eqb_neq.
Qed.

Lemma sum_minor_eq f idx : forall acc, sum_minor f idx acc =
  (fst acc + rsum (map (fun k => fst (f k)) idx), snd acc || existsb (fun k => snd (f k)) idx).
Proof.
  induction idx as [|k idx IH]; intros [v m]; cbn [sum_minor map rsum existsb].
  - cbn. now rewrite Rplus_0_r, orb_false_r.
  - rewrite IH. cbn. f_equal; [ring|]. now rewrite orb_assoc.
Qed.

Lemma pairs_compatible ts rows ps : compatible ts rows ps -> pairs ts rows = Ok ps.
Proof.
  intros [(row & -> & Ht & ->)|[(tm & -> & ->)|(HL & Hr & ->)]].
  - destruct ts; [congruence|reflexivity].
  - unfold pairs. destruct rows as [|r [|r' rows]]; reflexivity.
  - unfold pairs. destruct rows as [|r [|r' rows]]; [congruence| |].
    + destruct ts as [|t [|]]; cbn in HL; try lia. reflexivity.
    + destruct ts as [|t [|]]; cbn in HL; try lia. cbn [length]. rewrite !(proj2 (Nat.eqb_eq _ _)); auto.
Qed.

Lemma pairs_ok_compatible ts rows ps : pairs ts rows = Ok ps -> rows <> [] -> compatible ts rows ps.
Proof.
  unfold pairs, compatible. intros H Hr.
  destruct rows as [|r [|r' rows]]; [congruence| |].
  - destruct ts as [|t ts]; [cbn in H; discriminate|]. apply Ok_inj in H. subst. left.
    exists r. repeat split; auto. discriminate.
  - destruct ts as [|t [|t' ts]].
    + cbn in H. discriminate.
    + apply Ok_inj in H. subst. right. left. eauto.
    + destruct (_ =? _)%nat eqn:E; [|discriminate]. apply Nat.eqb_eq in E. apply Ok_inj in H. subst.
      right. right. repeat split; auto.
Qed.

(** ** The family skeleton *)
Section F.
Variables (cindex : list string) (need : nat) (names : list string).
Variable contrib : (R * R) -> list (option nat) -> list (cpx * bool) -> nat -> R * bool.

Lemma family_missing cs nc rows ts minor raise :
  NoDup (map lower cs) -> (length cs <= nc)%nat -> (n_present cs cindex < need)%nat ->
  family cindex need names contrib cs nc rows ts minor raise =
  if raise then Err OtherError else Ok Scalar0.
Proof.
  intros ND HL Hn. destruct (lookups_ok cs nc cindex ND HL) as (cols & E1 & E2 & _).
  unfold family. rewrite E1. cbn [bind]. rewrite E2. now rewrite (proj2 (Nat.ltb_lt _ _)).
Qed.

Lemma family_value cs nc rows ts minor raise ps :
  NoDup (map lower cs) -> (length cs <= nc)%nat -> (need <= n_present cs cindex)%nat ->
  compatible ts rows ps ->
  exists cols, mapM (lookup cs nc) cindex = Ok cols /\
  family cindex need names contrib cs nc rows ts minor raise =
  if np_any (wanted_idx cs minor names)
  then Ok (Arr (map (fun p =>
     (rsum (map (fun k => fst (contrib (fst p) cols (snd p) k)) (wanted_idx cs minor names)),
      existsb (fun k => snd (contrib (fst p) cols (snd p) k)) (wanted_idx cs minor names))) ps))
  else Ok Scalar0.
Proof.
  intros ND HL Hn Hc. destruct (lookups_ok cs nc cindex ND HL) as (cols & E1 & E2 & _).
  exists cols. split; auto. unfold family. rewrite E1. cbn [bind]. rewrite E2.
  replace (n_present cs cindex <? need)%nat with false by (symmetry; apply Nat.ltb_ge; lia).
  rewrite select_wanted. destruct (np_any _); auto. cbn [negb].
  rewrite (pairs_compatible _ _ _ Hc). cbn [bind]. do 2 f_equal. apply map_ext. intros p.
  rewrite sum_minor_eq. cbn. now rewrite Rplus_0_l.
Qed.

Lemma family_ext contrib' cs nc rows ts minor raise :
  (forall tm cols row k, (k < length names)%nat -> ~ In (nth k names EmptyString) cs ->
     contrib tm cols row k = contrib' tm cols row k) ->
  family cindex need names contrib cs nc rows ts minor raise =
  family cindex need names contrib' cs nc rows ts minor raise.
Proof.
  intros H. unfold family. destruct (mapM _ _); cbn [bind]; auto.
  destruct (_ <? _)%nat; auto. destruct (negb _); auto. destruct (pairs ts rows); cbn [bind]; auto.
  do 2 f_equal. apply map_ext. intros p. rewrite !sum_minor_eq. rewrite select_wanted.
  f_equal.
  - f_equal. f_equal. apply map_ext_in. intros k Hk. apply in_wanted_idx in Hk. destruct Hk as [K1 (_ & K2 & _)].
    now rewrite H.
  - f_equal. assert (G : forall l, (forall k, In k l -> contrib (fst p) a (snd p) k = contrib' (fst p) a (snd p) k) ->
      existsb (fun k => snd (contrib (fst p) a (snd p) k)) l = existsb (fun k => snd (contrib' (fst p) a (snd p) k)) l).
    { induction l as [|k l IH]; intros Hl; cbn; auto. rewrite (Hl k) by now left. rewrite IH; auto.
      intros; apply Hl; now right. }
    apply G. intros k Hk. apply in_wanted_idx in Hk. destruct Hk as [K1 (_ & K2 & _)]. now rewrite H.
Qed.

(** Linearity *)
Hypothesis contrib_lin : forall tm cols a b r1 r2 k, length r1 = length r2 ->
  contrib tm cols (lin_row a b r1 r2) k =
  (a * fst (contrib tm cols r1 k) + b * fst (contrib tm cols r2 k),
   snd (contrib tm cols r1 k) || snd (contrib tm cols r2 k)).

Lemma pairs_lin a b ts h1 h2 ps1 ps2 : same_shape h1 h2 ->
  pairs ts h1 = Ok ps1 -> pairs ts h2 = Ok ps2 ->
  pairs ts (lin_hc a b h1 h2) =
    Ok (map (fun q => (fst (fst q), lin_row a b (snd (fst q)) (snd (snd q)))) (combine ps1 ps2)) /\
  Forall2 (fun p1 p2 => fst p1 = fst p2 /\ length (snd p1) = length (snd p2)) ps1 ps2.
Proof.
  intros HS H1 H2.
  assert (C : forall (ts : list (R*R)), length ts = length h1 ->
     map (fun q => (fst (fst q), lin_row a b (snd (fst q)) (snd (snd q)))) (combine (combine ts h1) (combine ts h2))
       = combine ts (lin_hc a b h1 h2) /\
     Forall2 (fun p1 p2 => fst p1 = fst p2 /\ length (snd p1) = length (snd p2)) (combine ts h1) (combine ts h2)).
  { clear - HS. intros ts. revert ts. induction HS as [|r1 r2 h1 h2 Hr HS IH]; intros [|t ts] HL; cbn in HL; try lia.
    - split; [reflexivity|constructor].
    - destruct (IH ts ltac:(lia)) as [I1 I2]. split.
      + cbn. f_equal. exact I1.
      + cbn. constructor; auto. }
  pose proof (Forall2_length' _ _ _ HS) as HL.
  inversion HS as [|r1 r2 h1' h2' Hr HS' E1 E2]; subst.
  - unfold pairs in *. destruct ts as [|t [|t' ts]]; cbn in *; try discriminate;
      apply Ok_inj in H1; apply Ok_inj in H2; subst; cbn; split; try constructor; auto.
  - inversion HS' as [|r1' r2' h1'' h2'' Hr' HS'' E1 E2]; subst.
    + destruct ts as [|t ts]; cbn in H1, H2; [discriminate|].
      apply Ok_inj in H1. apply Ok_inj in H2. subst. clear C. split.
      * cbn. do 2 f_equal. clear. induction ts; cbn; auto. now rewrite IHts.
      * constructor; auto. clear - Hr. induction ts; cbn; constructor; auto.
    + destruct ts as [|t [|t' ts]].
      * cbn in H1. discriminate.
      * apply Ok_inj in H1. apply Ok_inj in H2. subst. split.
        -- cbn. do 3 f_equal. clear. unfold lin_hc. revert h2''.
           induction h1'' as [|u h1 IH]; intros [|v h2]; cbn; auto. f_equal. apply IH.
        -- clear - HS. induction HS; cbn; constructor; auto.
      * cbn in H1, H2. cbn [length] in *.
        destruct (_ =? _)%nat eqn:E1 in H1; [|discriminate]. apply Nat.eqb_eq in E1.
        destruct (_ =? _)%nat eqn:E2 in H2; [|discriminate].
        apply Ok_inj in H1. apply Ok_inj in H2. subst ps1 ps2.
        destruct (C (t :: t' :: ts)) as [C1 C2]; [cbn; lia|]. split; [|exact C2].
        change ((t, r1) :: (t', r1') :: combine ts h1'') with (combine (t :: t' :: ts) (r1 :: r1' :: h1'')).
        change ((t, r2) :: (t', r2') :: combine ts h2'') with (combine (t :: t' :: ts) (r2 :: r2' :: h2'')).
        rewrite C1.
        pose proof (lin_hc_length a b _ _ HS'') as L.
        unfold pairs. cbn [lin_hc combine map].
        change (map (fun p => lin_row a b (fst p) (snd p)) (combine h1'' h2'')) with (lin_hc a b h1'' h2'').
        cbn [length]. rewrite L. rewrite (proj2 (Nat.eqb_eq _ _)) by lia. reflexivity.
Qed.

Lemma family_lin a b cs nc h1 h2 ts minor raise d1 d2 : same_shape h1 h2 ->
  family cindex need names contrib cs nc h1 ts minor raise = Ok d1 ->
  family cindex need names contrib cs nc h2 ts minor raise = Ok d2 ->
  family cindex need names contrib cs nc (lin_hc a b h1 h2) ts minor raise = Ok (lin_dh a b d1 d2).
Proof.
  intros HS. unfold family. destruct (mapM _ _) as [cols|]; cbn [bind]; [|discriminate].
  destruct (_ <? _)%nat.
  { destruct raise; [discriminate|]. intros <-%Ok_inj <-%Ok_inj. reflexivity. }
  destruct (negb _).
  { intros <-%Ok_inj <-%Ok_inj. reflexivity. }
  destruct (pairs ts h1) as [ps1|] eqn:P1; cbn [bind]; [|discriminate].
  destruct (pairs ts h2) as [ps2|] eqn:P2; cbn [bind]; [|discriminate].
  destruct (pairs_lin a b _ _ _ _ _ HS P1 P2) as [P3 HF]. rewrite P3. cbn [bind].
  intros <-%Ok_inj <-%Ok_inj. cbn [lin_dh]. do 2 f_equal. unfold lin_out. rewrite map_map. clear P1 P2 P3.
  generalize (select cs (requested minor names) names 0). intros idx0.
  induction HF as [|[t1 r1] [t2 r2] l1 l2 [Ht Hr] HF IH]; cbn [combine map]; auto.
  rewrite IH. f_equal. rewrite !sum_minor_eq. cbn [fst snd] in *. subst t2.
  rewrite !Rplus_0_l. cbn [orb]. clear IH.
  induction idx0 as [|k idx IHi]; cbn [map rsum existsb].
  - f_equal. ring.
  - injection IHi as I1 I2. rewrite I1, I2, contrib_lin by auto. cbn [fst snd]. f_equal; [ring|].
    destruct (snd (contrib t1 cols r1 k)), (snd (contrib t1 cols r2 k)), (existsb (fun k0 => snd (contrib t1 cols r1 k0)) idx);
      cbn; auto.
Qed.
End F.

Lemma pick_lin a b r1 r2 o scale : length r1 = length r2 ->
  pick (lin_row a b r1 r2) o scale = lin a b (pick r1 o scale, pick r2 o scale).
Proof.
  intros HL. destruct o as [j|]; cbn [pick].
  - assert (E : nth j (lin_row a b r1 r2) ((0,0),false) = lin a b (nth j r1 ((0,0),false), nth j r2 ((0,0),false))).
    { unfold lin_row. rewrite <- combine_nth by auto.
      replace ((0,0),false) with (lin a b (((0,0),false),((0,0),false))) at 1.
      - now rewrite map_nth.
      - unfold lin, cadd, cscale, cre, cim. cbn. repeat f_equal; ring. }
    rewrite E. destruct (nth j r1 _) as [z1 m1], (nth j r2 _) as [z2 m2]. cbn.
    f_equal. destruct z1, z2. unfold cadd, cscale, cre, cim. cbn. f_equal; ring.
  - unfold lin, cadd, cscale, cre, cim. cbn. repeat f_equal; ring.
Qed.

Lemma component_term f th z : component f th z = term f th z.
Proof. unfold component, term. ring. Qed.

Ltac cx := unfold lin, cadd, csub, cscale, cre, cim in *; cbn [fst snd] in *.

Lemma sp_contrib_lin B corr tm cols a b r1 r2 k : length r1 = length r2 ->
  sp_contrib B corr tm cols (lin_row a b r1 r2) k =
  (a * fst (sp_contrib B corr tm cols r1 k) + b * fst (sp_contrib B corr tm cols r2 k),
   snd (sp_contrib B corr tm cols r1 k) || snd (sp_contrib B corr tm cols r2 k)).
Proof.
  intros HL. unfold sp_contrib. cbn [fst snd orb]. f_equal.
  rewrite <- component_lin. f_equal. unfold sp_zmin.
  induction (if String.eqb corr "FES" then sp_coef_fes k else sp_coef k) as [|[i c] l IH]; cbn [fold_right].
  - cx. f_equal; ring.
  - rewrite IH. cbn [fst snd].
    assert (E : nth i (map (fun o => pick (lin_row a b r1 r2) o 1) cols) ((0,0),false) =
        lin a b (nth i (map (fun o => pick r1 o 1) cols) ((0,0),false), nth i (map (fun o => pick r2 o 1) cols) ((0,0),false))).
    { assert (G : forall r, nth i (map (fun o => pick r o 1) cols) ((0,0),false) = pick r (nth i cols None) 1).
      { intros r. change ((0,0),false) with (pick r None 1). now rewrite map_nth with (d := None). }
      rewrite !G. now apply pick_lin. }
    rewrite E. destruct (nth i (map (fun o => pick r1 o 1) cols) _) as [z1 ?], (nth i (map (fun o => pick r2 o 1) cols) _) as [z2 ?].
    cx. f_equal; ring.
Qed.

Lemma lin_interp_lin om0 om1 om2 w a b x0 x1 x2 y0 y1 y2 :
  lin_interp om0 om1 om2 w (lin a b (x0, y0)) (lin a b (x1, y1)) (lin a b (x2, y2)) =
  lin a b (lin_interp om0 om1 om2 w x0 x1 x2, lin_interp om0 om1 om2 w y0 y1 y2).
Proof.
  destruct x0 as [[] ?], x1 as [[] ?], x2 as [[] ?], y0 as [[] ?], y1 as [[] ?], y2 as [[] ?].
  unfold lin_interp.
  destruct (if Rlt_dec om0 om1 then _ else _); cx; f_equal; try (f_equal; ring);
  repeat match goal with b : bool |- _ => destruct b end; reflexivity.
Qed.

Lemma adm_interp_lin M w a b x0 x1 x2 y0 y1 y2 :
  adm_interp M w (lin a b (x0, y0)) (lin a b (x1, y1)) (lin a b (x2, y2)) =
  lin a b (adm_interp M w x0 x1 x2, adm_interp M w y0 y1 y2).
Proof.
  destruct x0 as [[] ?], x1 as [[] ?], x2 as [[] ?], y0 as [[] ?], y1 as [[] ?], y2 as [[] ?].
  unfold adm_interp.
  destruct (nth 0 M _) as [[? ?] ?], (nth 1 M _) as [[? ?] ?], (nth 2 M _) as [[? ?] ?].
  cx. f_equal. f_equal; ring.
Qed.

Lemma pivot_contrib_lin A freq gam mj nm am an meth M tm cols a b r1 r2 k : length r1 = length r2 ->
  pivot_contrib A freq gam mj nm am an meth M tm cols (lin_row a b r1 r2) k =
  (a * fst (pivot_contrib A freq gam mj nm am an meth M tm cols r1 k) +
   b * fst (pivot_contrib A freq gam mj nm am an meth M tm cols r2 k),
   snd (pivot_contrib A freq gam mj nm am an meth M tm cols r1 k) ||
   snd (pivot_contrib A freq gam mj nm am an meth M tm cols r2 k)).
Proof.
  intros HL. unfold pivot_contrib. rewrite !pick_lin by auto.
  destruct meth; [rewrite lin_interp_lin|rewrite adm_interp_lin];
  match goal with |- context [lin a b (?x, ?y)] => destruct x as [z1 m1], y as [z2 m2] end;
  cbn [lin fst snd]; f_equal; unfold component; cx; ring.
Qed.

Lemma dh_add_lin a b d1 e1 d2 e2 : 
  (match d1, d2 with Arr l, Arr l' => length l = length l' | Scalar0, Scalar0 => True | _, _ => False end) ->
  (match e1, e2 with Arr l, Arr l' => length l = length l' | Scalar0, Scalar0 => True | _, _ => False end) ->
  (match d1, e1 with Arr l, Arr l' => length l = length l' | _, _ => True end) ->
  lin_dh a b (dh_add d1 e1) (dh_add d2 e2) = dh_add (lin_dh a b d1 d2) (lin_dh a b e1 e2).
Proof.
  destruct d1 as [|l1], d2 as [|l2], e1 as [|m1], e2 as [|m2]; cbn; try tauto; auto.
  intros H1 H2 H3. f_equal. unfold lin_out.
  revert l2 m1 m2 H1 H2 H3. induction l1 as [|[v1 x1] l1 IH]; intros [|[v2 x2] l2] [|[w1 y1] m1] [|[w2 y2] m2] H1 H2 H3;
    cbn in *; try lia; auto.
  rewrite IH by lia. f_equal. f_equal; [ring|]. destruct x1, x2, y1, y2; reflexivity.
Qed.

(** Shape of family results *)
Lemma family_shape cindex need names contrib contrib' need' cindex' names' cs nc h h' ts minor raise d d' :
  length h = length h' ->
  family cindex need names contrib cs nc h ts minor raise = Ok d ->
  family cindex' need' names' contrib' cs nc h' ts minor raise = Ok d' ->
  match d, d' with Arr l, Arr l' => length l = length l' | _, _ => True end.
Proof.
  intros HL. unfold family.
  destruct (mapM (lookup cs nc) cindex), (mapM (lookup cs nc) cindex'); cbn [bind]; try discriminate.
  destruct (_ <? need)%nat; [destruct raise; [discriminate|]; intros <-%Ok_inj; auto|].
  destruct (negb _); [intros <-%Ok_inj; auto|].
  destruct (pairs ts h) as [ps|] eqn:P; cbn [bind]; [|discriminate]. intros <-%Ok_inj.
  destruct (_ <? need')%nat; [destruct raise; [discriminate|]; intros <-%Ok_inj; auto|].
  destruct (negb _); [intros <-%Ok_inj; auto|].
  destruct (pairs ts h') as [ps'|] eqn:P'; cbn [bind]; [|discriminate]. intros <-%Ok_inj.
  rewrite !map_length.
  destruct h as [|r [|r' h]], h' as [|s [|s' h']]; cbn in HL; try lia;
  destruct ts as [|t [|t' ts]]; cbn in P, P'; try discriminate;
  repeat match goal with H : (if ?b then _ else _) = _ |- _ => destruct b eqn:?; [|discriminate] end;
  apply Ok_inj in P; apply Ok_inj in P'; subst; cbn; rewrite ?map_length, ?combine_length; lia.
Qed.

Lemma family_shape2 cindex need names contrib cs nc h h' ts minor raise d d' :
  length h = length h' ->
  family cindex need names contrib cs nc h ts minor raise = Ok d ->
  family cindex need names contrib cs nc h' ts minor raise = Ok d' ->
  match d, d' with Arr l, Arr l' => length l = length l' | Scalar0, Scalar0 => True | _, _ => False end.
Proof.
  intros HL H H'. pose proof (family_shape _ _ _ _ _ _ _ _ _ _ _ _ _ _ _ _ _ HL H H') as HS.
  revert H H'. unfold family. destruct (mapM _ _); cbn [bind]; [|discriminate].
  destruct (_ <? need)%nat; [destruct raise; [discriminate|]; now intros <-%Ok_inj <-%Ok_inj|].
  destruct (negb _); [now intros <-%Ok_inj <-%Ok_inj|].
  destruct (pairs ts h); cbn [bind]; [|discriminate]. destruct (pairs ts h'); cbn [bind]; [|discriminate].
  intros <-%Ok_inj <-%Ok_inj. exact HS.
Qed.
