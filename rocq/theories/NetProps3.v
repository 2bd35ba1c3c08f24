(** C98, concluded: verification of downloaded files, times, concrete cases and
    assumptions. *)
From Coq Require Import String Ascii List ZArith Bool Lia Permutation Znumtheory.
From Verif Require Import PyBase StrBase NetModel NetSpec NetProps NetProps2.
Import ListNotations.
Open Scope string_scope.

(** * verify_box_tpxo *)
Definition starts (w s : string) : Prop := exists r, s = w ++ r.
Lemma prefix_starts w s : String.prefix w s = true <-> starts w s.
Proof.
  revert s. induction w as [|c w IH]; intros s.
  - split; [intros _; now exists s|]. intros _. destruct s; reflexivity.
  - destruct s as [|d s]; cbn.
    + split; [discriminate|]. intros (r & E). discriminate.
    + destruct (ascii_dec c d) as [->|N].
      * rewrite IH. split; intros (r & E); exists r; cbn in *; congruence.
      * split; [discriminate|]. intros (r & E). cbn in E. congruence.
Qed.

Definition interesting (CURRENTS : bool) (e : entry) : Prop :=
  e_file e = true /\ (starts "grid" (e_name e) \/ starts "h" (e_name e) \/
                      CURRENTS = true /\ starts "u" (e_name e)).

Lemma interest_b CURRENTS e :
  e_file e && of_interest CURRENTS (e_name e) = true <-> interesting CURRENTS e.
Proof.
  unfold of_interest, interesting.
  rewrite andb_true_iff, !orb_true_iff, andb_true_iff, !prefix_starts. tauto.
Qed.

Section BOX.
Variable digest : string -> list ascii -> string.
Variable available : list string.
Hypothesis sha1 : In "sha1" available.
Variable place : string -> string.
Hypothesis different : forall a b, place a = place b -> a = b.

Definition fits (f : files) (e : entry) : Prop :=
  exists b t0 t, f (place (e_name e)) = Some (b, t0) /\ digest "sha1" b = e_sha1 e /\
    e_time e = Some t.

Lemma touch_fits p t f e : fits (touch p t f) e <-> fits f e.
Proof.
  unfold fits, touch. destruct (String.eqb (place (e_name e)) p); [|reflexivity].
  destruct (f (place (e_name e))) as [[b t1]|].
  - split; intros (b' & t0 & t' & E & H); injection E as <- <-; eauto 8.
  - split; intros (b' & t0 & t' & E & H); discriminate.
Qed.

Lemma verify_cons e l f :
  verify_loop digest available place (e :: l) f =
  match f (place (e_name e)) with
  | Some (b, _) =>
      if string_dec (digest "sha1" b) (e_sha1 e)
      then match e_time e with
           | Some t => verify_loop digest available place l (touch (place (e_name e)) t f)
           | None => (f, Some TypeError)
           end
      else (f, Some OtherError)
  | None => (f, Some (if string_dec "" (e_sha1 e) then FileNotFoundError else OtherError))
  end.
Proof.
  cbn [verify_loop]. unfold get_hash.
  destruct (f (place (e_name e))) as [[b t0]|].
  - rewrite (proj2 (mem_str_In _ _) sha1).
    destruct (string_dec (digest "sha1" b) (e_sha1 e)) as [->|N].
    + rewrite String.eqb_refl. reflexivity.
    + apply String.eqb_neq in N. rewrite N. reflexivity.
  - destruct (string_dec "" (e_sha1 e)) as [<-|N].
    + reflexivity.
    + apply String.eqb_neq in N. rewrite N. reflexivity.
Qed.

Lemma verify_ok l f :
  snd (verify_loop digest available place l f) = None <-> Forall (fits f) l.
Proof.
  revert f. induction l as [|e l IH]; intros f; [cbn; split; auto|].
  rewrite verify_cons, Forall_cons_iff. unfold fits at 1.
  destruct (f (place (e_name e))) as [[b t0]|].
  - destruct (string_dec (digest "sha1" b) (e_sha1 e)) as [Es|Ns].
    + destruct (e_time e) as [t|].
      * rewrite IH. split.
        -- intros H. split; [eauto 8|]. eapply Forall_impl; [|exact H].
           intros a Ha. exact (proj1 (touch_fits _ _ _ _) Ha).
        -- intros (_ & H). eapply Forall_impl; [|exact H]. intros a Ha. exact (proj2 (touch_fits _ _ _ _) Ha).
      * cbn. split; [discriminate|]. intros ((? & ? & ? & _ & _ & E) & _). discriminate.
    + cbn. split; [discriminate|]. intros ((? & ? & ? & E & E2 & _) & _). congruence.
  - cbn. split; [discriminate|]. intros ((? & ? & ? & E & _) & _). discriminate.
Qed.

Lemma verify_contents l f q :
  option_map fst (fst (verify_loop digest available place l f) q) = option_map fst (f q).
Proof.
  revert f. induction l as [|e l IH]; intros f; [reflexivity|].
  rewrite verify_cons. destruct (f (place (e_name e))) as [[b t0]|]; [|reflexivity].
  destruct (string_dec _ _); [|reflexivity]. destruct (e_time e) as [t|]; [|reflexivity].
  rewrite IH. unfold touch. destruct (String.eqb q (place (e_name e))); [|reflexivity].
  destruct (f q) as [[b' t']|]; reflexivity.
Qed.

Lemma verify_other l f q :
  (forall e, In e l -> q <> place (e_name e)) ->
  fst (verify_loop digest available place l f) q = f q.
Proof.
  revert f. induction l as [|e l IH]; intros f H; [reflexivity|].
  rewrite verify_cons. destruct (f (place (e_name e))) as [[b t0]|]; [|reflexivity].
  destruct (string_dec _ _); [|reflexivity]. destruct (e_time e) as [t|]; [|reflexivity].
  rewrite IH by (intros x Hx; apply H; now right). unfold touch.
  assert (N : q <> place (e_name e)) by (apply H; now left).
  apply String.eqb_neq in N. now rewrite N.
Qed.

Lemma verify_time l f : NoDup (map e_name l) ->
  snd (verify_loop digest available place l f) = None ->
  forall e, In e l -> exists b t, e_time e = Some t /\
    fst (verify_loop digest available place l f) (place (e_name e)) = Some (b, t).
Proof.
  revert f. induction l as [|x l IH]; intros f ND S e; [intros []|].
  cbn in ND. inversion ND as [|? ? Nx ND']; subst. rewrite verify_cons in S |- *.
  destruct (f (place (e_name x))) as [[b t0]|] eqn:Ef; [|discriminate].
  destruct (string_dec _ _); [|discriminate]. destruct (e_time x) as [t|] eqn:Et; [|discriminate].
  intros [<-|He]; [|now apply IH].
  exists b, t. split; [exact Et|]. rewrite verify_other.
  - unfold touch. now rewrite String.eqb_refl, Ef.
  - intros y Hy E. apply different in E. apply Nx. rewrite E. now apply in_map.
Qed.
End BOX.

(** the program ends without exception exactly if every file of interest is
    there with the hash of the host; it changes no contents, and then the times
    are those of the host *)
Theorem C98_box (digest : string -> list ascii -> string) (available : list string)
  (CURRENTS : bool) (place : string -> string) (l : list entry) (f : files) :
  In "sha1" available -> (forall a b, place a = place b -> a = b) ->
  let '(f', r) := verify_box_tpxo digest available CURRENTS place l f in
  (r = None <-> forall e, In e l -> interesting CURRENTS e ->
     exists b t0 t, f (place (e_name e)) = Some (b, t0) /\ digest "sha1" b = e_sha1 e /\
       e_time e = Some t) /\
  (forall q, option_map fst (f' q) = option_map fst (f q)) /\
  (forall q, (forall e, In e l -> interesting CURRENTS e -> q <> place (e_name e)) -> f' q = f q) /\
  (r = None -> NoDup (map e_name l) -> forall e, In e l -> interesting CURRENTS e ->
     exists b t, e_time e = Some t /\ f' (place (e_name e)) = Some (b, t)).
Proof.
  intros Ha Hd. unfold verify_box_tpxo.
  set (w := filter (fun e => e_file e && of_interest CURRENTS (e_name e)) l).
  assert (Hw : forall e, In e w <-> In e l /\ interesting CURRENTS e).
  { intros e. unfold w. rewrite filter_In. rewrite interest_b. reflexivity. }
  pose proof (verify_ok digest available Ha place w f) as A.
  pose proof (verify_contents digest available Ha place w f) as B.
  pose proof (verify_other digest available Ha place w f) as C.
  pose proof (verify_time digest available Ha place Hd w f) as T.
  destruct (verify_loop digest available place w f) as [f' r]. cbn [fst snd] in *.
  split; [|split; [exact B|split]].
  - rewrite A, Forall_forall. split; intros H e.
    + intros He Hi. apply H, Hw. auto.
    + intros He. apply Hw in He as (He & Hi). apply H; auto.
  - intros q Hq. apply C. intros e He. apply Hw in He as (He & Hi). auto.
  - intros Hr ND e He Hi. apply T; auto; [|apply Hw; auto].
    unfold w. clear -ND. induction l as [|x l IH]; [constructor|]. cbn in ND.
    inversion ND as [|? ? Nx ND']; subst. cbn. destruct (_ && _); [|auto].
    cbn. constructor; [|auto]. intros H. apply Nx.
    apply in_map_iff in H as (y & Ey & Hy). apply filter_In in Hy as (Hy & _).
    rewrite <- Ey. now apply in_map.
Qed.

(** * times *)
Lemma leap_iff y : leap y = true <-> leap_year y.
Proof.
  unfold leap, leap_year.
  rewrite andb_true_iff, orb_true_iff, negb_true_iff, Z.eqb_neq, !Z.eqb_eq.
  rewrite !Z.mod_divide by lia. tauto.
Qed.
Lemma leap_false y : leap y = false <-> ~ leap_year y.
Proof. rewrite <- leap_iff. destruct (leap y); split; congruence. Qed.

Lemma before_year_succ y : before_year (y + 1) = (before_year y + 365 + if leap y then 1 else 0)%Z.
Proof.
  unfold before_year, leap. replace (y + 1 - 1)%Z with y by lia.
  destruct (y mod 4 =? 0)%Z eqn:E4; [apply Z.eqb_eq in E4|apply Z.eqb_neq in E4];
  (destruct (y mod 100 =? 0)%Z eqn:E1; [apply Z.eqb_eq in E1|apply Z.eqb_neq in E1]);
  (destruct (y mod 400 =? 0)%Z eqn:E0; [apply Z.eqb_eq in E0|apply Z.eqb_neq in E0]);
  cbn [andb orb negb]; Z.to_euclidean_division_equations; lia.
Qed.

Lemma before_month_succ y m n : month_length y m n -> (m < 12)%Z ->
  before_month y (m + 1) = (before_month y m + n)%Z.
Proof.
  intros H. destruct H as [m H|m H|H|H]; intros L.
  - unfold before_month. generalize (leap y) as b. intros b.
    destruct H as [<-|[<-|[<-|[<-|[<-|[<-|[<-|[]]]]]]]]; destruct b; first [lia | vm_compute; reflexivity].
  - unfold before_month. generalize (leap y) as b. intros b.
    destruct H as [<-|[<-|[<-|[<-|[]]]]]; destruct b; first [lia | vm_compute; reflexivity].
  - apply leap_iff in H. unfold before_month. rewrite H. vm_compute. reflexivity.
  - apply leap_false in H. unfold before_month. rewrite H. vm_compute. reflexivity.
Qed.

(** calendar.timegm counts the seconds since the start of 1970: zero there, one
    day more for the day after, and the time of day besides; the offset from UTC
    does not matter *)
Theorem C98_timegm :
  timegm {| year := 1970; month := 1; day := 1; hour := 0; minute := 0; second := 0; gmtoff := None |} = 0%Z /\
  (forall y m d y' m' d' h mi s o, day_after (y, m, d) (y', m', d') ->
     timegm {| year := y'; month := m'; day := d'; hour := h; minute := mi; second := s; gmtoff := o |} =
     (timegm {| year := y; month := m; day := d; hour := h; minute := mi; second := s; gmtoff := o |} + 86400)%Z) /\
  (forall y m d h mi s o,
     timegm {| year := y; month := m; day := d; hour := h; minute := mi; second := s; gmtoff := o |} =
     (timegm {| year := y; month := m; day := d; hour := 0; minute := 0; second := 0; gmtoff := None |}
      + 3600 * h + 60 * mi + s)%Z).
Proof.
  split; [reflexivity|]. split.
  - intros y m d y' m' d' h mi s o H. unfold timegm. cbn [year month day hour minute second].
    inversion H; subst.
    + lia.
    + erewrite before_month_succ by eassumption. lia.
    + rewrite before_year_succ. unfold before_month. 
      change (Z.to_nat 1) with 1%nat. change (Z.to_nat 12) with 12%nat. cbn [nth].
      change (2 <? 1)%Z with false. change (2 <? 12)%Z with true. cbn [andb].
      match goal with |- context [leap ?y] => destruct (leap y) end; lia.
  - intros. unfold timegm. cbn [year month day hour minute second]. lia.
Qed.

(** one instant should have one value: a text with an offset that the format
    reads is off by the offset from the value of the same text read by dateutil *)
Theorem C98_zone_refuted (strptime : string -> string -> option fields)
  (dateutil : string -> option fields) (zone : Z) (rstrip : string -> string)
  (text format format' : string) (f : fields) (o : Z) :
  strptime (rstrip text) format = Some f -> strptime (rstrip text) format' = None ->
  dateutil (rstrip text) = Some f -> gmtoff f = Some o ->
  exists t t', get_unix_time strptime dateutil zone rstrip text format = Some t /\
    get_unix_time strptime dateutil zone rstrip text format' = Some t' /\ (t = t' + o)%Z.
Proof.
  intros A B C O. unfold get_unix_time. rewrite A, B, C, O.
  eexists _, _. split; [reflexivity|]. split; [reflexivity|]. lia.
Qed.

(** nor should it depend on the machine: without offset, dateutil's value does *)
Theorem C98_machine_refuted (strptime : string -> string -> option fields)
  (dateutil : string -> option fields) (zone zone' : Z) (rstrip : string -> string)
  (text format : string) (f : fields) :
  strptime (rstrip text) format = None -> dateutil (rstrip text) = Some f ->
  gmtoff f = None -> zone <> zone' ->
  get_unix_time strptime dateutil zone rstrip text format <>
  get_unix_time strptime dateutil zone' rstrip text format.
Proof.
  intros A C O N. unfold get_unix_time. rewrite A, C, O. intros E. injection E as E. lia.
Qed.

(** otherwise the value is the number of seconds since 1970, and texts of no
    date have none *)
Theorem C98_unix_time (strptime : string -> string -> option fields)
  (dateutil : string -> option fields) (zone : Z) (rstrip : string -> string)
  (text format : string) :
  (forall f, strptime (rstrip text) format = Some f ->
     get_unix_time strptime dateutil zone rstrip text format = Some (timegm f)) /\
  (forall f o, strptime (rstrip text) format = None -> dateutil (rstrip text) = Some f ->
     gmtoff f = Some o ->
     get_unix_time strptime dateutil zone rstrip text format = Some (timegm f - o)%Z) /\
  (strptime (rstrip text) format = None -> dateutil (rstrip text) = None ->
     get_unix_time strptime dateutil zone rstrip text format = None).
Proof.
  unfold get_unix_time. split; [|split].
  - intros f ->. reflexivity.
  - intros f o -> -> ->. reflexivity.
  - intros -> ->. reflexivity.
Qed.

(** * concrete cases *)
Example ex_listing :
  listed (Some (fun s => String.prefix "h" s)) true ["hf.m2"; "u.m2"; "ha.k1"; "hf.m2"] [1; 2; 3; 4]%Z
  = Ok (["ha.k1"; "hf.m2"; "hf.m2"], [3; 1; 4]%Z).
Proof. reflexivity. Qed.
Example ex_short : listed None true ["a"; "b"] [1%Z] = Err IndexError.
Proof. reflexivity. Qed.
Example ex_base : (base "pub/eop/finals", base "x", base "dir/") = ("finals", "x", "").
Proof. reflexivity. Qed.
Example ex_copy : copyfileobj 2 (list_ascii_of_string "abcde") = list_ascii_of_string "abcde".
Proof. reflexivity. Qed.
Definition ex_digest (a : string) (b : list ascii) : string := a ++ string_of_list_ascii b.
Definition ex_files : files := fun p => if String.eqb p "d/h_m2" then Some (list_ascii_of_string "M2", 5%Z) else None.
Example ex_http :
  let '(b, f') := from_http ex_digest 9 (list_ascii_of_string "K1") (Some "d/h_k1") "" 1 ex_files in
  b = list_ascii_of_string "K1" /\ f' "d/h_k1" = Some (list_ascii_of_string "K1", 9%Z) /\
  f' "d/h_m2" = Some (list_ascii_of_string "M2", 5%Z).
Proof. repeat split. Qed.
Example ex_box :
  let e := {| e_file := true; e_name := "h_m2"; e_sha1 := "sha1M2"; e_time := Some 7%Z |} in
  let '(f', r) := verify_box_tpxo ex_digest ["md5"; "sha1"] false (fun n => "d/" ++ n) [e] ex_files in
  r = None /\ f' "d/h_m2" = Some (list_ascii_of_string "M2", 7%Z).
Proof. repeat split. Qed.
Example ex_box_bad :
  let e := {| e_file := true; e_name := "h_m2"; e_sha1 := "sha1M3"; e_time := Some 7%Z |} in
  snd (verify_box_tpxo ex_digest ["md5"; "sha1"] false (fun n => "d/" ++ n) [e] ex_files) = Some OtherError.
Proof. reflexivity. Qed.
Example ex_date : day_after (2024, 2, 29)%Z (2024, 3, 1)%Z.
Proof.
  apply (next_month 2024 2 29); [|lia]. apply feb_leap. split; [now exists 506%Z|].
  left. intros (k & E). lia.
Qed.
Example ex_timegm :
  timegm {| year := 2024; month := 3; day := 1; hour := 12; minute := 30; second := 15; gmtoff := None |}
  = 1709296215%Z.
Proof. reflexivity. Qed.

Print Assumptions C98_listing.
Print Assumptions C98_base.
Print Assumptions C98_ftp.
Print Assumptions C98_http.
Print Assumptions C98_http_refuted.
Print Assumptions C98_cddis.
Print Assumptions C98_iers.
Print Assumptions C98_uhslc.
Print Assumptions C98_copy.
Print Assumptions C98_from_http.
Print Assumptions C98_from_ftp.
Print Assumptions C98_hash.
Print Assumptions C98_no_hash.
Print Assumptions C98_kernel.
Print Assumptions C98_kernel_refuted.
Print Assumptions C98_box.
Print Assumptions C98_timegm.
Print Assumptions C98_unix_time.
Print Assumptions C98_zone_refuted.
Print Assumptions C98_machine_refuted.
