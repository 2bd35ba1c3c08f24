(** C100: the login tries the credentials in turn and ends with those accepted. *)
From Coq Require Import String List Bool Arith Lia.
From Verif Require Import PyBase LoginModel LoginSpec.
Import ListNotations.
Open Scope string_scope.

Definition installs (es : list event) : list opener :=
  flat_map (fun e => match e with Install o => [o] | _ => [] end) es.
Definition requests (es : list event) : list (bool * string) :=
  flat_map (fun e => match e with Request b u => [(b, u)] | _ => [] end) es.
Definition asked_passwords (es : list event) : list string :=
  flat_map (fun e => match e with AskPassword w => [w] | _ => [] end) es.

Lemma missing_there s v : missing s = Some v <-> there s v.
Proof.
  unfold there, missing. destruct s as [[|a s]|]; split; intros H;
    try discriminate; try (destruct H as (H & N)); try congruence.
  injection H as <-. split; congruence.
Qed.
Lemma missing_absent s : missing s = None <-> absent s.
Proof.
  unfold absent, missing. destruct s as [[|a s]|]; split; intros H; auto; try discriminate.
  destruct H; discriminate.
Qed.

Section LOGIN.
Variables (names words : nat -> string) (accepts : string -> string -> bool).
Variable build : string -> string -> opener.
Notation tries := (tries names words accepts build).
Notation login := (login names words accepts build).

(** the pairs tried from counters [i] and [j] *)
Definition seq_ (user password : string) (i j k : nat) : string * string :=
  match k with O => (user, password) | S k => (names (i + k), words (j + k)) end.

Lemma seq_S user password i j k :
  seq_ user password i j (S k) = seq_ (names i) (words j) (S i) (S j) k.
Proof.
  destruct k; cbn; [now rewrite !Nat.add_0_r|].
  replace (i + S k) with (S (i + k)) by lia. now replace (j + S k) with (S (j + k)) by lia.
Qed.

Lemma tries_first who : forall n user password i j k,
  first_of (fun k => accepts (fst (seq_ user password i j k)) (snd (seq_ user password i j k)) = true) n k ->
  let '(es, r) := tries n (Some who) user password i j in
  r = Ok (build (fst (seq_ user password i j k)) (snd (seq_ user password i j k))) /\
  installs es = map (fun k => build (fst (seq_ user password i j k)) (snd (seq_ user password i j k))) (seq 0 (S k)).
Proof.
  induction n as [|n IH]; intros user password i j k (L & A & N); [lia|].
  cbn [LoginModel.tries]. destruct k as [|k].
  - cbn in A. rewrite A. split; reflexivity.
  - assert (A0 : accepts user password = false).
    { apply not_true_is_false. apply (N 0). lia. }
    rewrite A0. specialize (IH (names i) (words j) (S i) (S j) k).
    destruct (tries n (Some who) (names i) (words j) (S i) (S j)) as [es r].
    destruct IH as (-> & E).
    { split; [lia|]. rewrite seq_S in A. split; [exact A|].
      intros m Hm. specialize (N (S m)). rewrite seq_S in N. apply N. lia. }
    rewrite seq_S. split; [reflexivity|].
    cbn [installs flat_map app]. change (flat_map _ es) with (installs es). rewrite E.
    cbn [seq map]. f_equal. rewrite seq_S. f_equal.
    rewrite <- (seq_shift k 1), map_map. apply map_ext. intros m. now rewrite seq_S.
Qed.

Lemma tries_none who : forall n user password i j,
  (forall k, k < n -> accepts (fst (seq_ user password i j k)) (snd (seq_ user password i j k)) = false) ->
  let '(es, r) := tries n (Some who) user password i j in
  r = Err OtherError /\
  installs es = map (fun k => build (fst (seq_ user password i j k)) (snd (seq_ user password i j k))) (seq 0 n) /\
  asked_passwords es = repeat who n /\ (es = [] \/ exists es', es = (es' ++ [AskUser; AskPassword who])%list).
Proof.
  induction n as [|n IH]; intros user password i j N.
  - cbn. repeat split. now left.
  - cbn [LoginModel.tries]. pose proof (N 0 ltac:(lia)) as A0. cbn in A0. rewrite A0.
    specialize (IH (names i) (words j) (S i) (S j)).
    destruct (tries n (Some who) (names i) (words j) (S i) (S j)) as [es r].
    destruct IH as (-> & E & Q & T).
    { intros k Hk. specialize (N (S k)). rewrite seq_S in N. apply N. lia. }
    split; [reflexivity|]. split; [|split].
    + cbn [installs flat_map app]. change (flat_map _ es) with (installs es). rewrite E.
      cbn [seq map]. f_equal. rewrite <- (seq_shift n 0), map_map. apply map_ext. intros m. now rewrite seq_S.
    + cbn. change (flat_map _ es) with (asked_passwords es). now rewrite Q.
    + right. destruct T as [->|(es' & ->)].
      * now exists [Install (build user password)].
      * now exists (Install (build user password) :: AskUser :: AskPassword who :: es').
Qed.
End LOGIN.

Lemma seq_attempt_some u names words k : seq_ names words u (words 0) 0 1 k = typed u names words k.
Proof. destruct k; reflexivity. Qed.
Lemma seq_attempt_none names words k : seq_ names words (names 0) (words 0) 1 1 k = (names k, words k).
Proof. destruct k; reflexivity. Qed.

Section LOGIN2.
Variables (names words : nat -> string) (accepts : string -> string -> bool).
Variable build : string -> string -> opener.
Notation login := (login names words accepts build).

Lemma login_none_password n start : absent (snd start) ->
  exists user i, (there (fst start) user /\ i = 0 \/ absent (fst start) /\ user = names 0 /\ i = 1) /\
  let '(es, r) := tries names words accepts build n (Some user) user (words 0) i 1 in
  snd (login n start) = r /\ installs (fst (login n start)) = installs es /\
  exists pre, fst (login n start) = (pre ++ AskPassword user :: es)%list /\ asked_passwords pre = [].
Proof.
  intros A. apply missing_absent in A. unfold LoginModel.login. rewrite A.
  destruct (missing (fst start)) as [u|] eqn:E.
  - exists u, 0. split; [left; split; [now apply missing_there|reflexivity]|].
    destruct (tries _ _ _ _ n (Some u) u (words 0) 0 1) as [es r]. repeat split.
    now exists [].
  - exists (names 0), 1. split; [right; split; [now apply missing_absent|auto]|].
    destruct (tries _ _ _ _ n (Some (names 0)) (names 0) (words 0) 1 1) as [es r]. repeat split.
    now exists [AskUser].
Qed.
End LOGIN2.

(** where no password is stored the pairs are tried in turn, up to the number of
    retries: the login ends with the first pair accepted, whose opener is the
    last installed, and is an exception if none is *)
Theorem C100_login names words accepts build (n : nat) (start : option string * option string)
  (pair : nat -> string * string) :
  absent (snd start) ->
  (exists user, there (fst start) user /\ pair = typed user names words) \/
  (absent (fst start) /\ pair = (fun k => (names k, words k))) ->
  let opener k := build (fst (pair k)) (snd (pair k)) in
  let P k := accepts (fst (pair k)) (snd (pair k)) = true in
  let run := login names words accepts build n start in
  (forall k, first_of P n k ->
     snd run = Ok (opener k) /\ installs (fst run) = map opener (seq 0 (S k))) /\
  ((forall k, k < n -> ~ P k) ->
     snd run = Err OtherError /\ installs (fst run) = map opener (seq 0 n)).
Proof.
  intros A S opener P run.
  destruct (login_none_password names words accepts build n start A) as (user & i & H & R).
  assert (E : forall k, seq_ names words user (words 0) i 1 k = pair k).
  { intros k. destruct H as [(T & ->)|(T & -> & ->)], S as [(u & T' & ->)|(T' & ->)].
    - destruct T as (T & _), T' as (T' & _). rewrite T in T'. injection T' as ->. apply seq_attempt_some.
    - destruct T as (T & N). destruct T' as [T'|T']; congruence.
    - destruct T' as (T' & N). destruct T as [T|T]; congruence.
    - apply seq_attempt_none. }
  fold run in R.
  split.
  - intros k F. pose proof (tries_first names words accepts build user n user (words 0) i 1 k) as X.
    destruct (tries names words accepts build n (Some user) user (words 0) i 1) as [es r].
    destruct R as (-> & -> & _). destruct X as (-> & ->).
    { destruct F as (L & F & N). split; [exact L|]. rewrite E. split; [exact F|].
      intros j Hj. rewrite E. now apply N. }
    rewrite E. split; [reflexivity|]. apply map_ext. intros m. now rewrite E.
  - intros N. pose proof (tries_none names words accepts build user n user (words 0) i 1) as X.
    destruct (tries names words accepts build n (Some user) user (words 0) i 1) as [es r].
    destruct R as (-> & -> & _). destruct X as (-> & -> & _).
    { intros k Hk. rewrite E. apply not_true_is_false. now apply N. }
    split; [reflexivity|]. apply map_ext. intros m. now rewrite E.
Qed.

(** what is asked for should be tried: after the last retry a pair is asked for
    that is not, and the prompt names the first user whoever was typed last *)
Theorem C100_asked_refuted names words accepts build (n : nat) (user : string) :
  user <> "" -> (forall u p, accepts u p = false) ->
  let run := login names words accepts build (S n) (Some user, None) in
  List.length (installs (fst run)) = S n /\ asked_passwords (fst run) = repeat user (S (S n)) /\
  exists es, fst run = (es ++ [AskUser; AskPassword user])%list.
Proof.
  intros U N run.
  destruct (login_none_password names words accepts build (S n) (Some user, None)) as (u & i & H & R).
  { now left. }
  assert (u = user) as ->.
  { destruct H as [((T & _) & _)|([T|T] & _)]; cbn in T; congruence. }
  pose proof (tries_none names words accepts build user (S n) user (words 0) i 1) as X. fold run in R.
  assert (LI : forall es r, tries names words accepts build (S n) (Some user) user (words 0) i 1 = (es, r) -> es <> []).
  { cbn [tries]. rewrite N. intros es r. destruct (tries _ _ _ _ n _ _ _ _ _). intros E.
    injection E as <- <-. discriminate. }
  destruct (tries names words accepts build (S n) (Some user) user (words 0) i 1) as [es r].
  destruct R as (_ & Ri & pre & Re & Rp). destruct X as (_ & Xi & Xa & Xe).
  { intros k _. apply N. }
  rewrite Ri, Xi, map_length, seq_length. split; [reflexivity|]. rewrite Re. split.
  - unfold asked_passwords in *. rewrite flat_map_app, Rp. cbn [flat_map app]. now rewrite Xa.
  - destruct Xe as [Xe|(es' & Xe)]; [now destruct (LI _ _ eq_refl)|].
    exists (pre ++ AskPassword user :: es')%list. rewrite Xe. now rewrite <- app_assoc.
Qed.

(** a login that fails should be tried again: where the password is stored or
    given the first failure is an UnboundLocalError, whatever is typed *)
Theorem C100_stored names words accepts build (n : nat) start (password : string) :
  there (snd start) password -> exists user,
  (there (fst start) user \/ absent (fst start) /\ user = names 0) /\
  (accepts user password = true ->
    snd (login names words accepts build (S n) start) = Ok (build user password)) /\
  installs (fst (login names words accepts build (S n) start)) = [build user password].
Proof.
  intros P. apply missing_there in P. unfold login. rewrite P.
  destruct (missing (fst start)) as [u|] eqn:E.
  - exists u. split; [left; now apply missing_there|]. cbn [tries].
    destruct (accepts u password); split; try reflexivity; discriminate.
  - exists (names 0). split; [right; split; [now apply missing_absent|reflexivity]|]. cbn [tries].
    destruct (accepts (names 0) password); split; try reflexivity; discriminate.
Qed.
Theorem C100_retry_refuted names words accepts build (n : nat) start (password : string) :
  there (snd start) password -> (forall user, accepts user password = false) ->
  snd (login names words accepts build (S n) start) = Err NameError.
Proof.
  intros P N. apply missing_there in P. unfold login. rewrite P.
  destruct (missing (fst start)) as [u|]; cbn [tries]; rewrite N; reflexivity.
Qed.

(** the credentials given are used, else those of the environment; but those of
    the .netrc file come before those given *)
Theorem C100_given (gu gp : option (option string)) (eu ep : option string) :
  (forall u p, gu = Some u -> gp = Some p -> stored None gu gp eu ep = (u, p)) /\
  (gu = None -> gp = None -> stored None gu gp eu ep = (eu, ep)).
Proof. split; intros; subst; reflexivity. Qed.
Theorem C100_given_refuted names words accepts urs pm rd ah n entry gu gp eu ep gu' gp' eu' ep' :
  attempt_login names words accepts urs pm rd ah n (Some entry) gu gp eu ep =
  attempt_login names words accepts urs pm rd ah n (Some entry) gu' gp' eu' ep'.
Proof. reflexivity. Qed.

(** the functions on tokens should use the environment as well: they pass on
    None, and ask *)
Theorem C100_environment_refuted names words accepts (J : Type) (answer : bool -> string -> option J)
  post url eu ep eu' ep' :
  token_request names words accepts J answer post url None None true None eu ep =
  token_request names words accepts J answer post url None None true None eu' ep' /\
  exists es, fst (token_request names words accepts J answer post url None None true None eu ep) =
    (AskUser :: AskPassword (names 0) :: es)%list.
Proof.
  split; [reflexivity|]. unfold token_request, attempt_login, login, stored. cbn [setdefault missing fst snd].
  destruct (tries _ _ _ _ _ _ _ _ _ _) as [es r]. cbn [app].
  destruct r; eexists; reflexivity.
Qed.

(** one request is sent to the host, as the last act, exactly if the login
    succeeds or is not asked for; what the host answers is returned *)
Theorem C100_tokens names words accepts (J : Type) (answer : bool -> string -> option J)
  token HOST username password build netrc eu ep :
  let logged := build = false \/ exists o, snd (attempt_login names words accepts
      "urs.earthdata.nasa.gov" false false true None netrc (Some username) (Some password) eu ep) = Ok o in
  let once (run : list event * res J) post url :=
    (logged -> (exists es, fst run = (es ++ [Request post url])%list) /\
       requests (fst run) = [(post, url)] /\
       snd run = match answer post url with Some a => Ok a | None => Err OtherError end) /\
    (~ logged -> requests (fst run) = [] /\ exists e, snd run = Err e) in
  once (get_token names words accepts J answer HOST username password build netrc eu ep) true HOST /\
  once (list_tokens names words accepts J answer HOST username password build netrc eu ep) false HOST /\
  once (revoke_token names words accepts J answer token HOST username password build netrc eu ep)
    true (HOST ++ "?token=" ++ token).
Proof.
  intros logged once.
  assert (R : forall n prompt u p i j b,
    requests (fst (tries names words accepts b n prompt u p i j)) = []).
  { induction n as [|n IH]; intros prompt u p i j b; [reflexivity|]. cbn [tries].
    destruct (accepts u p); [reflexivity|]. destruct prompt as [w|]; [|reflexivity].
    specialize (IH (Some w) (names i) (words j) (S i) (S j) b).
    destruct (tries _ _ _ _ n _ _ _ _ _) as [es r]. exact IH. }
  assert (R' : requests (fst (attempt_login names words accepts
      "urs.earthdata.nasa.gov" false false true None netrc (Some username) (Some password) eu ep)) = []).
  { unfold attempt_login, login.
    destruct (missing _) as [u|]; destruct (missing _) as [p|];
      match goal with |- context [tries ?a ?b ?c ?d ?e ?f ?g ?h ?i ?j] =>
        pose proof (R e f g h i j d) as X; destruct (tries a b c d e f g h i j) as [es r] end; exact X. }
  assert (G : forall post url, once (token_request names words accepts J answer post url username password
    build netrc eu ep) post url).
  { intros post url. unfold once, token_request, logged. destruct build.
    - destruct (attempt_login _ _ _ _ _ _ _ _ _ _ _ _ _) as [es r]. cbn [fst snd] in R' |- *.
      destruct r as [o|e]; cbn [fst snd].
      + split.
        * intros _. split; [now exists es|]. split; [|reflexivity].
          unfold requests in *. rewrite flat_map_app, R'. reflexivity.
        * intros N. exfalso. apply N. right. now exists o.
      + split.
        * intros [H|(o & H)]; discriminate.
        * intros _. split; [exact R'|now exists e].
    - split.
      + intros _. split; [now exists []|]. split; reflexivity.
      + intros N. exfalso. apply N. now left. }
  repeat split; apply G; assumption.
Qed.

(** redirects should be followed exactly if asked for: they are followed always *)
Theorem C100_redirect_refuted user password pm rd ah urs :
  In Redirects (o_handlers (build_opener user password pm rd ah urs)) /\
  build_opener user password pm rd ah urs = build_opener user password pm (negb rd) ah urs.
Proof.
  split; [destruct pm, rd; cbn; tauto|destruct pm, rd; reflexivity].
Qed.

(** an opener has the credentials it was built with, and no others *)
Theorem C100_opener user password pm rd ah urs :
  let o := build_opener user password pm rd ah urs in
  o_header o = (if ah then Some (user, password) else None) /\
  (forall urs' user' password', In (Passwords urs' user' password') (o_handlers o) <->
     pm = true /\ (urs', user', password') = (urs, user, password)) /\
  In Cookies (o_handlers o) /\ In Https (o_handlers o).
Proof.
  cbn [build_opener o_header]. split; [reflexivity|]. split.
  - intros urs' user' password'. destruct pm, rd; cbn; split.
    all: try (intros [H|[H|[H|[H|[]]]]]; try discriminate H; injection H as <- <- <-; auto; fail).
    all: try (intros [H|[H|[H|[]]]]; discriminate H).
    all: try (intros (_ & H); injection H as -> -> ->; now left).
    all: intros (H & _); discriminate H.
  - destruct pm, rd; cbn; tauto.
Qed.

(** the number of retries is the one given, by default five *)
Theorem C100_retries names words accepts urs pm rd ah n user eu ep :
  (forall u p, accepts u p = false) ->
  List.length (installs (fst (attempt_login names words accepts urs pm rd ah (Some n) None (Some user) (Some None) eu ep))) = n /\
  List.length (installs (fst (attempt_login names words accepts urs pm rd ah None None (Some user) (Some None) eu ep))) = 5.
Proof.
  intros N.
  assert (X : forall m, List.length (installs (fst (login names words accepts
    (fun u p => build_opener u p pm rd ah urs) m (user, None)))) = m).
  { intros m. destruct (missing user) as [u|] eqn:E.
    - destruct (C100_login names words accepts (fun u p => build_opener u p pm rd ah urs) m (user, None)
        (typed u names words)) as (_ & X).
      + now left.
      + left. exists u. split; [now apply missing_there|reflexivity].
      + destruct X as (_ & X); [intros; rewrite N; discriminate|]. rewrite X. now rewrite map_length, seq_length.
    - destruct (C100_login names words accepts (fun u p => build_opener u p pm rd ah urs) m (user, None)
        (fun k => (names k, words k))) as (_ & X).
      + now left.
      + right. split; [now apply missing_absent|reflexivity].
      + destruct X as (_ & X); [intros; rewrite N; discriminate|]. rewrite X. now rewrite map_length, seq_length. }
  split; apply X.
Qed.

(** a token is requested with the credentials given in the header, and no
    password manager *)
Theorem C100_token_login names words accepts (J : Type) (answer : bool -> string -> option J)
  post url user password eu ep :
  user <> "" -> password <> "" ->
  exists o, installs (fst (token_request names words accepts J answer post url (Some user) (Some password) true None eu ep)) = [o] /\
  o_header o = Some (user, password) /\ forall a b c, ~ In (Passwords a b c) (o_handlers o).
Proof.
  intros U P. unfold token_request, attempt_login, login, stored. cbn [setdefault fst snd].
  rewrite (proj2 (missing_there (Some user) user)) by now split.
  rewrite (proj2 (missing_there (Some password) password)) by now split.
  exists (build_opener user password false false true "urs.earthdata.nasa.gov"). split.
  - cbn [tries]. destruct (accepts user password); reflexivity.
  - split; [reflexivity|]. intros a b c H. apply C100_opener in H as (H & _). discriminate.
Qed.

(** the requests to CDDIS have the credentials given, or those of the .netrc file
    if none are given, in the opener as in the header, if the host accepts them *)
Theorem C100_cddis accepts username password entry user word :
  (there username user /\ there password word) \/
  (absent username /\ absent password /\ entry = Ok (user, word)) ->
  cddis_login accepts true username password entry =
    (if accepts (Some user) (Some word) then Ok (Some (Some user, Some word), user ++ ":" ++ word)
     else Err OtherError).
Proof.
  intros [(U & P)|(U & P & ->)].
  - destruct U as (-> & U), P as (-> & P). unfold cddis_login.
    destruct user as [|a user]; [easy|]. reflexivity.
  - unfold cddis_login. apply missing_absent in U, P. rewrite U, P. reflexivity.
Qed.

(** a request without credentials should leave those of the opener in use: its
    header is "None:None", and one with a user name only has the password "None" *)
Theorem C100_cddis_refuted accepts entry user :
  cddis_login accepts false None None entry = Ok (None, "None:None") /\
  (user <> "" -> (forall u p, accepts u p = true) ->
   cddis_login accepts true (Some user) None entry = Ok (Some (Some user, None), user ++ ":None")).
Proof.
  split; [reflexivity|]. intros U A. unfold cddis_login. destruct user as [|a user]; [easy|].
  cbn [missing bind fst snd format]. rewrite A. reflexivity.
Qed.

(** * concrete cases *)
Definition ex_names (k : nat) : string := match k with 0 => "ana" | _ => "bo" end.
Definition ex_words (k : nat) : string := match k with 0 => "wrong" | 1 => "right" | _ => "other" end.
Definition ex_accepts (u p : string) : bool := (u =? "bo") && (p =? "right").
Example ex_login :
  absent None /\ first_of (fun k => ex_accepts (ex_names k) (ex_words k) = true) 5 1 /\
  snd (attempt_login ex_names ex_words ex_accepts "urs" true true false None None None None None None) =
    Ok (build_opener "bo" "right" true true false "urs").
Proof.
  split; [now left|]. split; [|reflexivity]. split; [lia|]. split; [reflexivity|].
  intros j Hj. assert (j = 0) as -> by lia. discriminate.
Qed.
Example ex_stored_user : there (Some "cy") "cy" /\
  typed "cy" ex_names ex_words 0 = ("cy", "wrong") /\ typed "cy" ex_names ex_words 1 = ("ana", "right").
Proof. split; [split; congruence|]. split; reflexivity. Qed.
Example ex_retry :
  snd (attempt_login ex_names ex_words ex_accepts "urs" true true false None
         (Some (Some "cy", Some "stale")) None None None None) = Err NameError.
Proof. reflexivity. Qed.
Example ex_revoke :
  revoke_token ex_names ex_words ex_accepts nat (fun _ _ => Some 7) "abc" "h" None None false None None None =
    ([Request true "h?token=abc"], Ok 7).
Proof. reflexivity. Qed.

Example ex_cddis :
  cddis_login (fun _ _ => true) true None (Some "") (Ok ("cy", "stored")) =
    Ok (Some (Some "cy", Some "stored"), "cy:stored") /\
  cddis_login (fun _ _ => true) true None None (Err FileNotFoundError) = Err FileNotFoundError.
Proof. split; reflexivity. Qed.

Print Assumptions C100_login.
Print Assumptions C100_cddis.
Print Assumptions C100_cddis_refuted.
Print Assumptions C100_asked_refuted.
Print Assumptions C100_stored.
Print Assumptions C100_retry_refuted.
Print Assumptions C100_given.
Print Assumptions C100_given_refuted.
Print Assumptions C100_environment_refuted.
Print Assumptions C100_tokens.
Print Assumptions C100_redirect_refuted.
Print Assumptions C100_opener.
Print Assumptions C100_retries.
Print Assumptions C100_token_login.
