(** C42: parsing of constituent names. *)
From Coq Require Import String Ascii List Arith Bool Lia.
From Verif Require Import PyBase StrBase DoodsonData ParseModel ParseSpec.
Import ListNotations.
Open Scope string_scope.

(** * Strings *)
Lemma app_assoc_s (a b c : string) : (a ++ b) ++ c = a ++ b ++ c.
Proof. induction a; cbn; congruence. Qed.
Lemma app_nil_s (a : string) : a ++ "" = a.
Proof. induction a; cbn; congruence. Qed.
Lemma length_app_s (a b : string) : String.length (a ++ b) = String.length a + String.length b.
Proof. induction a; cbn; congruence. Qed.
Lemma lower_app a b : lower (a ++ b) = lower a ++ lower b.
Proof. unfold lower. induction a; cbn; congruence. Qed.
Lemma lower_cons c s : lower (String c s) = String (lower_ascii c) (lower s).
Proof. reflexivity. Qed.
Lemma length_lower s : String.length (lower s) = String.length s.
Proof. unfold lower. induction s; cbn; congruence. Qed.
Lemma srev_acc s : forall acc, srev s acc = srev s "" ++ acc.
Proof.
  induction s as [|c s IH]; intros acc; cbn; [reflexivity|].
  rewrite (IH (String c acc)), (IH (String c "")), app_assoc_s. reflexivity.
Qed.
Lemma srev_app a b : srev (a ++ b) "" = srev b "" ++ srev a "".
Proof.
  induction a as [|c a IH]; cbn; [now rewrite app_nil_s|].
  rewrite srev_acc, IH, (srev_acc a (String c "")), app_assoc_s. reflexivity.
Qed.
Lemma srev_inv s : srev (srev s "") "" = s.
Proof. induction s as [|c s IH]; [reflexivity|]. cbn [srev]. rewrite (srev_acc s (String c "")), srev_app, IH. reflexivity. Qed.
Lemma srev_inj a b : srev a "" = srev b "" -> a = b.
Proof. intros E. rewrite <- (srev_inv a), E. apply srev_inv. Qed.
Lemma srev_lower s : lower (srev s "") = srev (lower s) "".
Proof.
  induction s as [|c s IH]; [reflexivity|]. cbn [srev lower smap]. fold (lower s).
  rewrite (srev_acc s (String c "")), lower_app, IH, (srev_acc (lower s) (String (lower_ascii c) "")). reflexivity.
Qed.

(** texts that agree start with one another *)
Lemma common_start (a b c d : string) : a ++ b = c ++ d ->
  (exists e, c = a ++ e /\ b = e ++ d) \/ (exists e, a = c ++ e /\ d = e ++ b).
Proof.
  revert c. induction a as [|x a IH]; intros [|y c]; cbn.
  - left. now exists "".
  - intros ->. left. now exists (String y c).
  - intros <-. right. now exists (String x a).
  - intros [= -> E]. destruct (IH c E) as [[e [-> ->]]|[e [-> ->]]]; [left|right]; now exists e.
Qed.
Lemma lower_split s : forall a b, lower s = a ++ b -> exists a' b', s = a' ++ b' /\ lower a' = a /\ lower b' = b.
Proof.
  induction s as [|c s IH]; intros [|x a] b E; cbn in E.
  - exists "", "". now subst.
  - discriminate.
  - exists "", (String c s). now subst.
  - injection E as Ex E. destruct (IH a b E) as (a' & b' & -> & <- & <-).
    exists (String c a'), b'. cbn. now rewrite Ex.
Qed.

Lemma starts_ci_iff w s : starts_ci w s = true <-> starts_with w (lower s).
Proof.
  revert s. induction w as [|c w IH]; intros s.
  - split; [intros _; now exists (lower s)|reflexivity].
  - destruct s as [|d s]; cbn.
    + split; [discriminate|]. intros [x E]. discriminate.
    + rewrite andb_true_iff, IH, Ascii.eqb_eq. split.
      * intros [-> [x E]]. exists x. change (String (lower_ascii d) (lower s) = String (lower_ascii d) (w ++ x)). now rewrite E.
      * intros [x E]. injection E as E1 E2. split; [auto|]. now exists x.
Qed.
Lemma ends_ci_iff w p : starts_ci (srev w "") (srev p "") = true <-> ends_with w (lower p).
Proof.
  rewrite starts_ci_iff, srev_lower. split.
  - intros [x E]. exists (srev x ""). apply srev_inj. rewrite srev_app, srev_inv. exact E.
  - intros [x ->]. exists (srev x ""). apply srev_app.
Qed.

Lemma prefix_starts w s : String.prefix w s = true <-> starts_with w s.
Proof.
  revert s. induction w as [|c w IH]; intros s.
  - split; [intros _; now exists s|destruct s; reflexivity].
  - destruct s as [|d s]; [split; [discriminate|intros [x E]; discriminate]|].
    change (String.prefix (String c w) (String d s)) with (if ascii_dec c d then String.prefix w s else false).
    destruct (ascii_dec c d) as [->|N].
    + rewrite IH. split; intros [x E]; exists x.
      * change (String d s = String d (w ++ x)). now rewrite E.
      * now injection E.
    + split; [discriminate|]. intros [x E]. injection E as E _. congruence.
Qed.
Lemma contains_inside w s : contains w s = true <-> inside w s.
Proof.
  induction s as [|c s IH].
  - change (contains w "") with (String.prefix w "" || false). rewrite orb_false_r, prefix_starts. split.
    + intros [x E]. exists "", x. exact E.
    + intros (b & a & E). destruct b; [now exists a|discriminate].
  - change (contains w (String c s)) with (String.prefix w (String c s) || contains w s).
    rewrite orb_true_iff, prefix_starts, IH. split.
    + intros [[x E]|(b & a & E)]; [exists "", x; exact E|exists (String c b), a; cbn; congruence].
    + intros (b & a & E). destruct b as [|d b]; [left; now exists a|]. right.
      exists b, a. cbn in E. congruence.
Qed.

Lemma substring_skip a b n : String.length b <= n -> substring (String.length a) n (a ++ b) = b.
Proof.
  intros L. induction a as [|c a IH]; cbn; [|assumption].
  revert n L. induction b as [|d b IH]; intros [|n] L; cbn in *; try reflexivity; [lia|].
  rewrite IH by lia. reflexivity.
Qed.
Lemma substring_take a b : substring 0 (String.length a) (a ++ b) = a.
Proof. induction a as [|c a IH]; cbn; [now destruct b|]. now rewrite IH. Qed.
Lemma get_skip a b : String.get (String.length a) (a ++ b) = String.get 0 b.
Proof. induction a as [|c a IH]; cbn; [reflexivity|assumption]. Qed.

(** * One position *)
Lemma table_known : known_names = map body cindex.
Proof. reflexivity. Qed.
Lemma table_rows a : In a cindex -> behind a = not_before (body a) /\ ahead a = not_after (body a).
Proof.
  intros I. assert (F : Forall (fun a => behind a = not_before (body a) /\ ahead a = not_after (body a)) cindex).
  { unfold cindex. repeat constructor. }
  rewrite Forall_forall in F. auto.
Qed.

(** the alternative matches where its name stands, whatever the case *)
Lemma alt_matches_iff p rest a : In a cindex ->
  alt_matches (srev p "") rest a = true <->
  exists w post, rest = w ++ post /\ lower w = body a /\ stands (lower p) (body a) (lower post).
Proof.
  intros I. destruct (table_rows a I) as [TB TA]. unfold alt_matches, stands. rewrite TB, TA.
  rewrite !andb_true_iff, !forallb_forall. split.
  - intros [[B M] F]. apply starts_ci_iff in M as [x E].
    destruct (lower_split rest _ _ E) as (w & post & -> & Ew & Ep).
    exists w, post. split; [reflexivity|]. split; [assumption|]. split.
    + intros b Ib N. specialize (B b Ib). apply negb_true_iff in B. apply ends_ci_iff in N. congruence.
    + intros y Iy N. specialize (F y Iy). apply negb_true_iff in F.
      rewrite <- Ew, length_lower, substring_skip in F by (rewrite length_app_s; lia).
      apply starts_ci_iff in N. congruence.
  - intros (w & post & -> & Ew & B & F). split; [split|].
    + intros b Ib. apply negb_true_iff. apply not_true_iff_false. rewrite ends_ci_iff. auto.
    + apply starts_ci_iff. exists (lower post). now rewrite lower_app, Ew.
    + intros y Iy. apply negb_true_iff. apply not_true_iff_false. rewrite <- Ew, length_lower, substring_skip
        by (rewrite length_app_s; lia). rewrite starts_ci_iff. auto.
Qed.

(** no known name that stands starts another one at the same place *)
Definition tail_of (a b : string) : string := substring (String.length a) (String.length b) b.
Lemma names_compatible :
  forallb (fun n => forallb (fun m =>
    negb (String.prefix n m) || String.eqb n m ||
    existsb (fun x => String.prefix x (tail_of n m)) (not_after n)) known_names) known_names = true.
Proof. vm_compute. reflexivity. Qed.
Lemma stands_unique n m a b p :
  In n known_names -> In m known_names -> n ++ a = m ++ b -> stands p n a -> stands p m b -> n = m.
Proof.
  assert (K : forall n m e b, In n known_names -> In m known_names -> m = n ++ e -> stands p n (e ++ b) -> n = m).
  { intros n0 m0 e b0 In0 Im0 E [_ S0]. pose proof names_compatible as C.
    rewrite forallb_forall in C. specialize (C n0 In0). rewrite forallb_forall in C. specialize (C m0 Im0).
    rewrite !orb_true_iff in C. destruct C as [[C|C]|C].
    - apply negb_true_iff in C. rewrite (proj2 (prefix_starts n0 m0)) in C; [discriminate|now exists e].
    - now apply String.eqb_eq in C.
    - exfalso. apply existsb_exists in C as [x [Ix Px]]. apply (S0 x Ix). unfold tail_of in Px.
      rewrite E, substring_skip in Px by (rewrite length_app_s; lia).
      apply prefix_starts in Px as [z ->]. exists (z ++ b0). apply app_assoc_s. }
  intros Hn Hm E Sn Sm. destruct (common_start n a m b E) as [[e [E1 E2]]|[e [E1 E2]]].
  - subst a. eapply K; eauto.
  - subst b. symmetry. eapply K; eauto.
Qed.

Definition primed (after : string) : string :=
  match after with String "'" _ => "'" | _ => "" end.
Lemma primed_lower s : primed (lower s) = primed s.
Proof. destruct s as [|[[] [] [] [] [] [] [] []] s]; reflexivity. Qed.

Lemma match_here_some p rest n post :
  In n known_names -> lower rest = n ++ post -> stands (lower p) n post ->
  exists w, match_here (srev p "") rest = Some w /\ lower w = n ++ primed post.
Proof.
  intros I E SN. unfold match_here.
  destruct (find (alt_matches (srev p "") rest) cindex) as [a|] eqn:F.
  - apply find_some in F as [Ia Ma]. apply (alt_matches_iff p rest a Ia) in Ma as (w & q & -> & Ew & SA).
    assert (En : body a = n).
    { apply (stands_unique (body a) n (lower q) post (lower p)); auto.
      - rewrite table_known. now apply in_map.
      - now rewrite <- E, lower_app, Ew. }
    rewrite En in *. rewrite <- Ew, length_lower, get_skip, substring_take.
    rewrite lower_app, Ew in E.
    assert (Ep : lower q = post). { clear -E. revert E. induction n; cbn; [auto|]. intros [=]. auto. }
    rewrite <- Ep, primed_lower, Ew. destruct q as [|c q]; cbn [String.get].
    + exists w. split; [reflexivity|]. cbn. now rewrite app_nil_s.
    + destruct (Ascii.eqb c "'") eqn:C.
      * apply Ascii.eqb_eq in C; subst c. exists (w ++ "'"). split; [reflexivity|]. rewrite lower_app, Ew. reflexivity.
      * exists w. split; [reflexivity|]. rewrite Ew.
        replace (primed (String c q)) with "" by (destruct c as [[] [] [] [] [] [] [] []]; try reflexivity; discriminate C).
        now rewrite app_nil_s.
  - exfalso. rewrite table_known in I. apply in_map_iff in I as [a [<- Ia]].
    pose proof (find_none _ _ F a Ia) as N. apply not_true_iff_false in N. apply N.
    apply alt_matches_iff; [assumption|]. destruct (lower_split rest _ _ E) as (w & q & -> & Ew & <-).
    exists w, q. auto.
Qed.

Lemma match_here_none p rest :
  (forall n post, In n known_names -> lower rest = n ++ post -> ~ stands (lower p) n post) ->
  match_here (srev p "") rest = None.
Proof.
  intros N. unfold match_here. destruct (find _ cindex) as [a|] eqn:F; [|reflexivity]. exfalso.
  apply find_some in F as [Ia Ma]. apply (alt_matches_iff p rest a Ia) in Ma as (w & q & -> & Ew & SA).
  apply (N (body a) (lower q)).
  - rewrite table_known. now apply in_map.
  - now rewrite lower_app, Ew.
  - assumption.
Qed.

(** * The search *)
Lemma search_unfold b rest : search b rest =
  match match_here b rest with
  | Some w => Some w
  | None => match rest with "" => None | String c r => search (String c b) r end
  end.
Proof. destruct rest; reflexivity. Qed.
Lemma srev_snoc p c : String c (srev p "") = srev (p ++ String c "") "".
Proof. rewrite srev_app. reflexivity. Qed.

Lemma search_none rest : forall p,
  (forall before n after, lower rest = before ++ n ++ after -> In n known_names ->
     ~ stands (lower p ++ before) n after) ->
  search (srev p "") rest = None.
Proof.
  induction rest as [|c rest IH]; intros p N; rewrite search_unfold, match_here_none.
  - reflexivity.
  - intros n post I E. specialize (N "" n post E I). now rewrite app_nil_s in N.
  - rewrite srev_snoc. apply IH. intros before n after E I SN.
    apply (N (String (lower_ascii c) before) n after); auto.
    + now rewrite lower_cons, E.
    + rewrite lower_app, app_assoc_s in SN. exact SN.
  - intros n post I E. specialize (N "" n post E I). now rewrite app_nil_s in N.
Qed.

Lemma search_some rest : forall p before n after,
  lower rest = before ++ n ++ after -> In n known_names -> stands (lower p ++ before) n after ->
  (forall before' n' after', lower rest = before' ++ n' ++ after' -> In n' known_names ->
     stands (lower p ++ before') n' after' -> String.length before <= String.length before') ->
  exists w, search (srev p "") rest = Some w /\ lower w = n ++ primed after.
Proof.
  induction rest as [|c rest IH]; intros p before n after E I SN L; rewrite search_unfold.
  - destruct before; [|discriminate]. rewrite app_nil_s in SN.
    destruct (match_here_some p "" n after I E SN) as (w & -> & Ew). eauto.
  - destruct before as [|d before].
    + rewrite app_nil_s in SN. destruct (match_here_some p (String c rest) n after I E SN) as (w & -> & Ew). eauto.
    + rewrite match_here_none.
      * rewrite srev_snoc. cbn in E. injection E as Ed E. subst d.
        apply (IH (p ++ String c "") before n after E I).
        -- rewrite lower_app, app_assoc_s. exact SN.
        -- intros b' n' a' E' I' SN'. rewrite lower_app, app_assoc_s in SN'.
           specialize (L (String (lower_ascii c) b') n' a'). cbn [String.length] in L.
           assert (S (String.length before) <= S (String.length b')); [|lia].
           apply L; auto. now rewrite lower_cons, E'.
      * intros n' post I' E' SN'. specialize (L "" n' post E' I'). rewrite app_nil_s in L.
        specialize (L SN'). cbn in L. lia.
Qed.

(** ** C42: the parser gives the leftmost known name that stands on its own in
    the text, lower case, with the prime that follows it; if none does, the
    constituent of the first abbreviation in the text; else ValueError. *)
Theorem C42_leftmost :
  forall s,
    (forall before name after,
       lower s = before ++ name ++ after -> In name known_names -> stands before name after ->
       (forall before' name' after',
          lower s = before' ++ name' ++ after' -> In name' known_names -> stands before' name' after' ->
          String.length before <= String.length before') ->
       parse s = Ok (name ++ match after with String "'" _ => "'" | _ => "" end)) /\
    ((forall before name after,
        lower s = before ++ name ++ after -> In name known_names -> ~ stands before name after) ->
     (forall earlier key name later,
        abbreviations = (earlier ++ (key, name) :: later)%list ->
        inside key (lower s) -> (forall k n, In (k, n) earlier -> ~ inside k (lower s)) ->
        parse s = Ok name) /\
     ((forall key name, In (key, name) abbreviations -> ~ inside key (lower s)) ->
      parse s = Err ValueError)).
Proof.
  intros s. split.
  - intros before name after E I SN L. unfold parse.
    destruct (search_some s "" before name after E I SN) as (w & H & Ew).
    + intros; eapply L; eauto.
    + cbn in H. rewrite H, Ew. reflexivity.
  - intros N. assert (H : search "" s = None).
    { apply (search_none s ""). intros before n after E I. cbn. now apply N. }
    unfold parse. rewrite H. change mapping with abbreviations. split.
    + intros earlier key name later E C F. rewrite E. clear E.
      assert (X : find (fun m => contains (fst m) (lower s)) (earlier ++ (key, name) :: later)%list = Some (key, name)).
      { induction earlier as [|[k n] earlier IH]; cbn.
        - now rewrite (proj2 (contains_inside key (lower s))).
        - destruct (contains k (lower s)) eqn:K.
          + exfalso. apply (F k n); [now left|]. now apply contains_inside.
          + apply IH. intros k' n' I. apply (F k' n'). now right. }
      now rewrite X.
    + intros F. destruct (find _ abbreviations) as [[k n]|] eqn:X; [|reflexivity].
      apply find_some in X as [I C]. exfalso. apply (F k n I). now apply contains_inside.
Qed.
Print Assumptions C42_leftmost.

Example C42_leftmost_case :
  parse "fes2014/M2_ocean.nc" = Ok "m2" /\ parse "GOT4.10 RHO1' tide" = Ok "rho1'" /\
  parse "LAM2" = Ok "lambda2" /\ parse "unknown" = Err ValueError.
Proof. repeat split; reflexivity. Qed.

(** * Every text falls in one of the two cases *)
Lemma in_compute_inv x l : In x l -> mem_str x l = true.
Proof. apply mem_str_In. Qed.

(** what surrounds a name either lets it stand or not *)
Lemma classic_stands before name after :
  stands before name after \/
  (exists b, In b (not_before name) /\ ends_with b before) \/
  (exists a, In a (not_after name) /\ starts_with a after).
Proof.
  destruct (existsb (fun b => String.prefix (srev b "") (srev before "")) (not_before name)) eqn:B.
  { right. left. apply existsb_exists in B as [b [I P]]. exists b. split; [assumption|].
    apply prefix_starts in P as [x E]. exists (srev x ""). apply srev_inj. now rewrite srev_app, srev_inv. }
  destruct (existsb (fun a => String.prefix a after) (not_after name)) eqn:A.
  { right. right. apply existsb_exists in A as [a [I P]]. exists a. split; [assumption|]. now apply prefix_starts. }
  left. split.
  - intros b I [x ->].
    apply not_true_iff_false in B. apply B. apply existsb_exists. exists b. split; [assumption|].
    apply prefix_starts. exists (srev x ""). apply srev_app.
  - intros a I SW. apply not_true_iff_false in A. apply A. apply existsb_exists. exists a. split; [assumption|].
    now apply prefix_starts.
Qed.

Definition leftmost (s before name after : string) : Prop :=
  lower s = before ++ name ++ after /\ In name known_names /\ stands before name after /\
  forall before' name' after',
    lower s = before' ++ name' ++ after' -> In name' known_names -> stands before' name' after' ->
    String.length before <= String.length before'.

Lemma match_here_inv p rest w : match_here (srev p "") rest = Some w ->
  exists n post, In n known_names /\ lower rest = n ++ post /\ stands (lower p) n post.
Proof.
  unfold match_here. destruct (find _ cindex) as [a|] eqn:F; [|discriminate]. intros _.
  apply find_some in F as [Ia Ma]. apply (alt_matches_iff p rest a Ia) in Ma as (v & q & -> & Ev & SA).
  exists (body a), (lower q). split; [rewrite table_known; now apply in_map|].
  split; [now rewrite lower_app, Ev|assumption].
Qed.

Lemma search_cases rest : forall p,
  (exists before n after, lower rest = before ++ n ++ after /\ In n known_names /\
     stands (lower p ++ before) n after /\
     forall before' n' after', lower rest = before' ++ n' ++ after' -> In n' known_names ->
       stands (lower p ++ before') n' after' -> String.length before <= String.length before') \/
  (forall before n after, lower rest = before ++ n ++ after -> In n known_names ->
     ~ stands (lower p ++ before) n after).
Proof.
  induction rest as [|c rest IH]; intros p.
  - right. intros before n after E I. destruct before; [|discriminate]. destruct n; [|discriminate].
    apply in_compute_inv in I. discriminate I.
  - destruct (match_here (srev p "") (String c rest)) as [w|] eqn:M.
    + left. apply match_here_inv in M as (n & post & I & E & SN). exists "", n, post.
      split; [assumption|]. split; [assumption|]. split; [now rewrite app_nil_s|]. intros. cbn. lia.
    + assert (N0 : forall n post, In n known_names -> lower (String c rest) = n ++ post -> ~ stands (lower p) n post).
      { intros n post I E SN. destruct (match_here_some p (String c rest) n post I E SN) as (w & H & _). congruence. }
      destruct (IH (p ++ String c "")) as [(before & n & after & E & I & SN & L)|N].
      * left. exists (String (lower_ascii c) before), n, after. rewrite lower_app, app_assoc_s in SN.
        split; [now rewrite lower_cons, E|]. split; [assumption|]. split; [exact SN|].
        intros [|d b'] n' a' E' I' SN'.
        -- rewrite app_nil_s in SN'. exfalso. exact (N0 n' a' I' E' SN').
        -- cbn in E'. injection E' as Ed E'. cbn. apply le_n_S. apply (L b' n' a' E' I').
           rewrite lower_app, app_assoc_s. subst d. exact SN'.
      * right. intros [|d b'] n' a' E' I' SN'.
        -- rewrite app_nil_s in SN'. exact (N0 n' a' I' E' SN').
        -- cbn in E'. injection E' as Ed E'. apply (N b' n' a' E' I').
           rewrite lower_app, app_assoc_s. subst d. exact SN'.
Qed.

Lemma parse_cases s :
  (exists before n after, leftmost s before n after) \/
  (forall before n after, lower s = before ++ n ++ after -> In n known_names -> ~ stands before n after).
Proof. exact (search_cases s ""). Qed.

Lemma abbreviation_cases t :
  (exists earlier key name later, abbreviations = (earlier ++ (key, name) :: later)%list /\
     inside key t /\ forall k n, In (k, n) earlier -> ~ inside k t) \/
  (forall key name, In (key, name) abbreviations -> ~ inside key t).
Proof.
  induction abbreviations as [|[k n] l IH].
  - right. intros ? ? [].
  - destruct (contains k t) eqn:C.
    + left. exists [], k, n, l. split; [reflexivity|]. split; [now apply contains_inside|]. intros ? ? [].
    + assert (N : ~ inside k t) by (rewrite <- contains_inside; congruence).
      destruct IH as [(e & k' & n' & r & -> & I & F)|F].
      * left. exists ((k, n) :: e), k', n', r. split; [reflexivity|]. split; [assumption|].
        intros k0 n0 [[= <- <-]|H]; eauto.
      * right. intros k0 n0 [[= <- <-]|H]; eauto.
Qed.

(** ** C42: letter case does not matter. *)
Theorem C42_case : forall s s', lower s = lower s' -> parse s = parse s'.
Proof.
  intros s s' E. destruct (C42_leftmost s) as [H1 H2]. destruct (C42_leftmost s') as [H1' H2'].
  destruct (parse_cases s) as [(b & n & a & E0 & I & SN & L)|N].
  - rewrite (H1 b n a E0 I SN L). symmetry. rewrite E in E0. apply (H1' b n a E0 I SN).
    intros b' n' a' E'. rewrite <- E in E'. eauto.
  - destruct (H2 N) as [H3 H4]. rewrite E in N. destruct (H2' N) as [H3' H4'].
    destruct (abbreviation_cases (lower s)) as [(e & k & n & r & EA & I & F)|F].
    + rewrite (H3 e k n r EA I F). rewrite E in I, F. symmetry. exact (H3' e k n r EA I F).
    + rewrite (H4 F). rewrite E in F. symmetry. exact (H4' F).
Qed.
Print Assumptions C42_case.

Example C42_case_case : lower "LaMbDa2" = lower "lambda2" /\ parse "LaMbDa2" = Ok "lambda2".
Proof. split; reflexivity. Qed.

(** ** C42: every known name, in any case, with or without a prime, is parsed to
    itself, and so is the name at the start of a file name. *)
Theorem C42_canonical :
  forall name s, In name known_names -> lower s = name -> parse s = Ok name /\ parse (s ++ "'") = Ok (name ++ "'").
Proof.
  intros name s I E.
  assert (F : Forall (fun n => parse n = Ok n /\ parse (n ++ "'") = Ok (n ++ "'")) known_names).
  { unfold known_names. repeat (constructor; [split; vm_compute; reflexivity|]). constructor. }
  rewrite Forall_forall in F. destruct (F name I) as [F1 F2].
  assert (L : lower name = name) by (rewrite <- E; apply lower_idem).
  split.
  - rewrite <- F1. apply C42_case. now rewrite E.
  - rewrite <- F2. apply C42_case. now rewrite !lower_app, E, L.
Qed.
Print Assumptions C42_canonical.

Theorem C42_file_name :
  forall name rest c, In name known_names -> In c ["."; "_"; "-"; "/"; " "; ","]%char ->
    parse (name ++ String c rest) = Ok name.
Proof.
  intros name rest c I Ic.
  assert (F : Forall (fun n => parse (n ++ String c rest) = Ok n) known_names).
  { unfold known_names. cbn in Ic.
    repeat destruct Ic as [<-|Ic]; [..|destruct Ic];
      repeat (constructor; [vm_compute; reflexivity|]); constructor. }
  rewrite Forall_forall in F. auto.
Qed.
Print Assumptions C42_file_name.

Example C42_file_name_case : In "mtm" known_names /\ parse "MTM_fes2014.nc" = Ok "mtm".
Proof. split; [apply in_compute; reflexivity|reflexivity]. Qed.

(** ** C42: what comes out is always a known name, possibly primed, and parsing it
    again changes nothing. *)
Theorem C42_idempotent :
  forall s r, parse s = Ok r ->
    (exists name, In name known_names /\ (r = name \/ r = name ++ "'")) /\ parse r = Ok r.
Proof.
  intros s r P.
  assert (K : exists name, In name known_names /\ (r = name \/ r = name ++ "'")).
  { destruct (C42_leftmost s) as [H1 H2].
    destruct (parse_cases s) as [(b & n & a & E0 & I & SN & L)|N].
    - rewrite (H1 b n a E0 I SN L) in P. apply Ok_inj in P. subst r. exists n. split; [assumption|].
      destruct a as [|[[] [] [] [] [] [] [] []] a]; auto; left; apply app_nil_s.
    - destruct (H2 N) as [H3 H4].
      destruct (abbreviation_cases (lower s)) as [(e & k & n & r0 & EA & I & F)|F].
      + rewrite (H3 e k n r0 EA I F) in P. apply Ok_inj in P. subst r. exists n. split; [|now left].
        assert (IA : In (k, n) abbreviations) by (rewrite EA; apply in_or_app; right; now left).
        assert (A : Forall (fun e => In (snd e) known_names) abbreviations).
        { unfold abbreviations. repeat (constructor; [apply in_compute; vm_compute; reflexivity|]). constructor. }
        rewrite Forall_forall in A. exact (A _ IA).
      + rewrite (H4 F) in P. discriminate. }
  split; [assumption|]. destruct K as [name [I [-> | ->]]].
  - apply (C42_canonical name name I). assert (L : Forall (fun n => lower n = n) known_names) by (unfold known_names; repeat constructor).
    rewrite Forall_forall in L. auto.
  - apply (C42_canonical name name I). assert (L : Forall (fun n => lower n = n) known_names) by (unfold known_names; repeat constructor).
    rewrite Forall_forall in L. auto.
Qed.
Print Assumptions C42_idempotent.

Example C42_idempotent_case : parse "tide_SIG1.grd" = Ok "sigma1" /\ parse "sigma1" = Ok "sigma1".
Proof. split; reflexivity. Qed.

(** ** C42: a text that contains a known name is never rejected, except for [mt] in
    "mtide" and [s2] in "s20"; the only exception raised is ValueError, and only when no
    known name stands in the text and no abbreviation is in it. *)
Lemma not_rejected s w : inside w (lower s) ->
  (In w known_names /\ not_before w = [] /\ not_after w = []) \/ In w (map fst abbreviations) ->
  is_ok (parse s) = true.
Proof.
  intros (b & a & E) H. destruct (C42_leftmost s) as [H1 H2].
  destruct (parse_cases s) as [(b0 & n & a0 & E0 & I & SN & L)|N].
  - now rewrite (H1 b0 n a0 E0 I SN L).
  - destruct (H2 N) as [H3 H4]. destruct H as [[I [B A]]|I].
    + exfalso. apply (N b w a E I). split; intros x Ix; [rewrite B in Ix|rewrite A in Ix]; destruct Ix.
    + apply in_map_iff in I as [[k n] [Ek I]]. cbn in Ek. subst k.
      destruct (abbreviation_cases (lower s)) as [(e & k & n0 & r & EA & I' & F)|F].
      * now rewrite (H3 e k n0 r EA I' F).
      * exfalso. apply (F w n I). now exists b, a.
Qed.

Theorem C42_total :
  forall s name before after, In name known_names -> lower s = before ++ name ++ after ->
    (name = "mt" -> ~ starts_with "ide" after) -> (name = "s2" -> ~ starts_with "0" after) ->
    exists r, parse s = Ok r.
Proof.
  intros s name before after I E M T.
  assert (G : is_ok (parse s) = true); [|destruct (parse s); [eauto|discriminate]].
  (* either the name stands, or what surrounds it makes another one *)
  destruct (classic_stands before name after) as [SN|[(b & Ib & [p Eb])|(x & Ix & [q Ea])]].
  - destruct (C42_leftmost s) as [H1 _].
    destruct (parse_cases s) as [(b0 & n & a0 & E0 & I0 & SN0 & L)|N].
    + now rewrite (H1 b0 n a0 E0 I0 SN0 L).
    + exfalso. exact (N before name after E I SN).
  - apply (not_rejected s (b ++ name)).
    + exists p, after. rewrite E, Eb. now rewrite !app_assoc_s.
    + assert (K : Forall (fun n => Forall (fun b =>
        (In (b ++ n) known_names /\ not_before (b ++ n) = [] /\ not_after (b ++ n) = []) \/
        In (b ++ n) (map fst abbreviations)) (not_before n)) known_names).
      { apply Forall_forall. intros n In0. apply Forall_forall. intros c Ic.
        assert (C : forallb (fun n => forallb (fun b =>
          (mem_str (b ++ n) known_names && (match not_before (b ++ n) with [] => true | _ => false end)
            && (match not_after (b ++ n) with [] => true | _ => false end))
          || mem_str (b ++ n) (map fst abbreviations)) (not_before n)) known_names = true) by (vm_compute; reflexivity).
        rewrite forallb_forall in C. specialize (C n In0). rewrite forallb_forall in C. specialize (C c Ic).
        apply orb_true_iff in C as [C|C]; [left|right; now apply mem_str_In].
        apply andb_true_iff in C as [C C3]. apply andb_true_iff in C as [C1 C2].
        split; [now apply mem_str_In|]. split; [now destruct (not_before (c ++ n))|now destruct (not_after (c ++ n))]. }
      rewrite Forall_forall in K. specialize (K name I). rewrite Forall_forall in K. exact (K b Ib).
  - apply (not_rejected s (name ++ x)).
    + exists before, q. rewrite E, Ea. now rewrite !app_assoc_s.
    + left. assert (C : forallb (fun n => forallb (fun x =>
        (String.eqb n "mt" && String.eqb x "ide") || (String.eqb n "s2" && String.eqb x "0") ||
        (mem_str (n ++ x) known_names && (match not_before (n ++ x) with [] => true | _ => false end)
            && (match not_after (n ++ x) with [] => true | _ => false end))) (not_after n)) known_names = true)
        by (vm_compute; reflexivity).
      rewrite forallb_forall in C. specialize (C name I). rewrite forallb_forall in C. specialize (C x Ix).
      rewrite !orb_true_iff, !andb_true_iff, !String.eqb_eq in C. destruct C as [[[-> ->]|[-> ->]]|[[C1 C2] C3]].
      * exfalso. apply (M eq_refl). now exists q.
      * exfalso. apply (T eq_refl). now exists q.
      * split; [now apply mem_str_In|]. split; [now destruct (not_before (name ++ x))|now destruct (not_after (name ++ x))].
Qed.
Print Assumptions C42_total.

Theorem C42_errors : forall s e, parse s = Err e ->
  e = ValueError /\
  (forall before name after, lower s = before ++ name ++ after -> In name known_names -> ~ stands before name after) /\
  (forall key name, In (key, name) abbreviations -> ~ inside key (lower s)).
Proof.
  intros s e P. destruct (C42_leftmost s) as [H1 H2].
  destruct (parse_cases s) as [(b & n & a & E0 & I & SN & L)|N].
  - rewrite (H1 b n a E0 I SN L) in P. discriminate.
  - destruct (H2 N) as [H3 H4].
    destruct (abbreviation_cases (lower s)) as [(e0 & k & n & r & EA & I & F)|F].
    + rewrite (H3 e0 k n r EA I F) in P. discriminate.
    + rewrite (H4 F) in P. injection P as <-. auto.
Qed.
Print Assumptions C42_errors.

Example C42_total_case : parse "xQ1y" = Ok "q1" /\ parse "amtide" = Err ValueError /\ parse "s20" = Err ValueError.
Proof. repeat split; reflexivity. Qed.

(** ** Finding: of the 483 constituents in the table of Doodson coefficients, 80 are
    parsed to themselves, 205 are rejected and 198 are taken for another constituent. *)
Theorem C42_tabulated_refuted :
  (exists e, In e doodson_table /\ fst e = "m10" /\ parse (fst e) = Ok "m1") /\
  (exists e, In e doodson_table /\ fst e = "2ms6" /\ parse (fst e) = Ok "s6") /\
  (exists e, In e doodson_table /\ fst e = "mo3" /\ parse (fst e) = Err ValueError) /\
  List.length doodson_table = 483 /\
  List.length (filter (fun e => match parse (fst e) with Ok r => String.eqb r (fst e) | Err _ => false end)
                 doodson_table) = 80 /\
  List.length (filter (fun e => negb (is_ok (parse (fst e)))) doodson_table) = 205.
Proof.
  assert (K : forall n, mem_str n (map fst doodson_table) = true -> exists e, In e doodson_table /\ fst e = n).
  { intros n H. apply mem_str_In in H. apply in_map_iff in H as [e [<- I]]. eauto. }
  split; [|split; [|split; [|split; [|split]]]].
  - destruct (K "m10") as [e [I E]]; [vm_compute; reflexivity|]. exists e. rewrite E. repeat split; auto.
  - destruct (K "2ms6") as [e [I E]]; [vm_compute; reflexivity|]. exists e. rewrite E. repeat split; auto.
  - destruct (K "mo3") as [e [I E]]; [vm_compute; reflexivity|]. exists e. rewrite E. repeat split; auto.
  - vm_compute; reflexivity.
  - vm_compute; reflexivity.
  - vm_compute; reflexivity.
Qed.
Print Assumptions C42_tabulated_refuted.
