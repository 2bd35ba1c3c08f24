(** C92: the crs class, whatever pyproj answers: how a description of a system is read, what an
    instance holds after any sequence of calls, and what conversions give.
    Code: pyTMD/crs.py:69-242. *)
From Coq Require Import String Ascii List Bool ZArith Lia.
From Verif Require Import StrBase CrsModel CrsSpec CrsProofs.
Import ListNotations.
Open Scope string_scope.

Section C92.
  Context {D C P : Type} (lib : pyproj D C P).

  (** reading a description: the first of the three attempts that is not refused by a ValueError
      or CRSError settles it, and if all are refused it is a CRSError *)
Theorem C92_found : forall g r, from_input lib g = r <-> settles (attempts lib g) r.
  Proof. intros. apply from_input_iff. Qed.

  (** get has all or no effect: it holds the system found under its own name, or leaves the
      instance as it was and raises CRSError, whatever the exception was *)
Theorem C92_get : forall (s : instance) g,
    (forall c, resolves lib g c -> get lib s g = (Instance (Named (title lib c)) (Some c) (letter s) (transformer s), Good tt))
    /\ ((forall c, ~ resolves lib g c) -> get lib s g = (s, Bad CrsFault)).
  Proof.
    intros s g. unfold get. split.
    - intros c R. apply resolves_iff in R. now rewrite R.
    - intros N. destruct (from_input lib g) as [c|x] eqn:E; [|reflexivity]. exfalso. apply (N c). now apply resolves_iff.
  Qed.

  (** after any sequence of calls, failed ones included, the system held is that of the last get
      or convert that found one, the direction that of the last convert that found its system and
      was given a letter, and the name what the last get or convert left *)
Theorem C92_held : forall calls,
    let s := after lib calls fresh in
    (forall c, crs s = Some c <-> latest (adopts lib) calls c)
    /\ (crs s = None <-> never (adopts lib) calls)
    /\ (forall d, direction s = d <-> latest (turns lib) calls d \/ (never (turns lib) calls /\ d = Forward))
    /\ (forall l, name s = l <-> latest (labels lib) calls l \/ (never (labels lib) calls /\ l = NoName)).
  Proof.
    intros calls s. subst s.
    assert (G : forall (X : Type) (does : call -> X -> Prop) (x0 v : X), (forall k x y, does k x -> does k y -> x = y) ->
      (exists x, latest does calls x /\ v = x) \/ (never does calls /\ v = x0) ->
      forall x, v = x <-> latest does calls x \/ (never does calls /\ x = x0)).
    { intros X does x0 v F H x. split.
      - intros <-. destruct H as [(x & L & ->)|(V & ->)]; [now left|now right].
      - destruct H as [(y & L & ->)|(V & ->)]; intros [L'|[V' ->]]; try reflexivity.
        + eapply latest_fun; eassumption.
        + exfalso. eapply latest_never; eassumption.
        + exfalso. eapply latest_never; eassumption. }
    split; [|split; [|split]].
    - intros c. destruct (crs_after lib calls fresh) as [(c0 & L & ->)|(V & ->)]; split; intros H; try discriminate H.
      + injection H as <-. exact L.
      + f_equal. eapply latest_fun; [apply (adopts_fun lib)|exact L|exact H].
      + exfalso. eapply latest_never; eassumption.
    - destruct (crs_after lib calls fresh) as [(c0 & L & ->)|(V & ->)]; split; intros H; try discriminate H; try reflexivity; try exact V.
      exfalso. eapply latest_never; eassumption.
    - apply G; [apply turns_fun|]. apply (way_after lib calls fresh).
    - apply G; [apply labels_fun|]. apply (name_after lib calls fresh).
  Qed.

  (** transform after any sequence of calls *)
Theorem C92_transform : forall calls (p : P) e d r,
    snd (transform lib (after lib calls fresh) p e d) = r <->
    (exists x, settles (attempts lib e) (Bad x) /\ r = Bad x)
    \/ (exists src, resolves lib e src /\ never (adopts lib) calls /\ r = Bad AttributeFault)
    \/ (exists src dst, resolves lib e src /\ latest (adopts lib) calls dst
        /\ ((exists x, pair_up lib src dst = Bad x /\ r = Bad x)
            \/ (pair_up lib src dst = Good tt
                /\ exists w, (d = Some w \/ (d = None /\ (latest (turns lib) calls w \/ (never (turns lib) calls /\ w = Forward))))
                   /\ r = move lib src dst w p))).
  Proof.
    intros calls p e d r. destruct (C92_held calls) as (Hc & Hn & Hd & _). cbn [fst] in *. unfold transform.
    set (s := after lib calls fresh) in *. split.
    - intros H. destruct (from_input lib e) as [src|x] eqn:E.
      + apply resolves_iff in E. right. destruct (crs s) as [dst|] eqn:K.
        * right. exists src, dst. split; [exact E|]. split; [now apply Hc|].
          destruct (pair_up lib src dst) as [[]|x] eqn:Pp; cbn [snd] in H; [right|left; exists x; auto].
          split; [reflexivity|]. exists (match d with Some d => d | None => direction s end). split; [|now subst r].
          destruct d as [w|]; [now left|]. right. split; [reflexivity|]. now apply Hd.
        * left. exists src. split; [exact E|]. split; [now apply Hn|]. now subst r.
      + apply from_input_iff in E. left. exists x. auto.
    - intros [(x & S & ->)|[(src & R & V & ->)|(src & dst & R & L & H)]].
      + apply from_input_iff in S. now rewrite S.
      + apply resolves_iff in R. rewrite R. apply Hn in V. now rewrite V.
      + apply resolves_iff in R. rewrite R. apply Hc in L. rewrite L.
        destruct H as [(x & -> & ->)|(-> & w & W & ->)]; [reflexivity|]. cbn [snd].
        destruct W as [->|(-> & W)]; [reflexivity|]. apply Hd in W. now rewrite W.
  Qed.

  (** convert: what it gives depends on its arguments alone, not on what the instance held *)
Theorem C92_convert : forall (s : instance) (p : P) g bf e r,
    snd (convert lib s p g bf e) = r <->
    ((forall c, ~ resolves lib g c) /\ r = Bad CrsFault)
    \/ (exists dst, resolves lib g dst
        /\ ((bf = "" /\ r = Bad IndexFault)
            \/ exists a t, bf = String a t
               /\ ((exists x, settles (attempts lib e) (Bad x) /\ r = Bad x)
                   \/ exists src, resolves lib e src
                      /\ ((exists x, pair_up lib src dst = Bad x /\ r = Bad x)
                          \/ (pair_up lib src dst = Good tt /\ r = move lib src dst (way a) p))))).
  Proof.
    intros s p g bf e r. unfold convert, get, transform. split.
    - destruct (from_input lib g) as [dst|x] eqn:E.
      + intros H. right. exists dst. split; [now apply resolves_iff|]. destruct bf as [|a t]; [left; auto|]. right. exists a, t. split; [reflexivity|].
        cbn [name crs letter transformer] in H. destruct (from_input lib e) as [src|x] eqn:E'.
        * right. exists src. split; [now apply resolves_iff|]. destruct (pair_up lib src dst) as [[]|x]; cbn [snd] in H; [right|left; eauto].
          split; [reflexivity|]. subst r. f_equal. rewrite <- upper_way. reflexivity.
        * left. exists x. split; [now apply from_input_iff|]. now subst r.
      + intros <-. left. split; [|reflexivity]. intros c R. apply resolves_iff in R. congruence.
    - intros [(N & ->)|(dst & R & H)].
      + destruct (from_input lib g) as [c|x] eqn:E; [|reflexivity]. exfalso. apply (N c). now apply resolves_iff.
      + apply resolves_iff in R. rewrite R. destruct H as [(-> & ->)|(a & t & -> & H)]; [reflexivity|].
        cbn [name crs letter transformer]. destruct H as [(x & S & ->)|(src & S & H)].
        * apply from_input_iff in S. now rewrite S.
        * apply resolves_iff in S. rewrite S. destruct H as [(x & -> & ->)|(-> & ->)]; [reflexivity|]. cbn [snd]. f_equal.
          rewrite <- upper_way. reflexivity.
  Qed.

  (** forward and back again is the identity where pyproj's transformations invert, on whatever
      instances the two conversions run *)
Theorem C92_round_trip :
    (forall src dst p q, move lib src dst Forward p = Good q -> move lib src dst Inverse q = Good p) ->
    forall (s s' : instance) p q g e t t' f b, In f ["F"; "f"]%char -> In b ["B"; "b"]%char ->
    snd (convert lib s p g (String f t) e) = Good q -> snd (convert lib s' q g (String b t') e) = Good p.
  Proof.
    intros I s s' p q g e t t' f b Hf Hb H.
    assert (Wf : way f = Forward) by (destruct Hf as [<-|[<-|[]]]; reflexivity).
    assert (Wb : way b = Inverse) by (destruct Hb as [<-|[<-|[]]]; reflexivity).
    apply C92_convert in H. apply C92_convert. destruct H as [(_ & H)|(dst & R & [(H & _)|(a & u & E & H)])]; try discriminate H.
    injection E as <- <-. destruct H as [(x & _ & H)|(src & S & [(x & _ & H)|(K & H)])]; try discriminate H.
    right. exists dst. split; [exact R|]. right. exists b, t'. split; [reflexivity|]. right. exists src. split; [exact S|]. right. split; [exact K|].
    rewrite Wf in H. rewrite Wb. symmetry. apply I. now symmetry.
  Qed.

  (** a dictionary that pyproj refuses: int() of it is a TypeError, which get turns into a
      CRSError but transform lets through *)
Theorem C92_dictionary : forall d, refused (user_input lib (GDict d)) ->
    from_input lib (GDict d) = Bad TypeFault
    /\ (forall s : instance, get lib s (GDict d) = (s, Bad CrsFault))
    /\ (forall (s : instance) p w, transform lib s p (GDict d) w = (s, Bad TypeFault)).
  Proof.
    intros d R. assert (E : from_input lib (GDict d) = Bad TypeFault).
    { apply from_input_iff. left. exists [user_input lib (GDict d)], [crs_string lib (GDict d)].
      split; [reflexivity|]. split; [auto|]. intros [H|H]; discriminate H. }
    split; [exact E|]. split; intros; unfold get, transform; now rewrite E.
  Qed.

  (** the representation of an instance as text: an exception exactly where the last convert was
      given a letter that is no direction *)
Theorem C92_describe : forall calls,
    (exists r, describe (after lib calls fresh) = Good r) <-> ~ latest (turns lib) calls NoDirection.
  Proof.
    intros calls. destruct (C92_held calls) as (_ & _ & Hd & _). cbn [fst] in Hd. unfold describe. split.
    - intros (r & H) L. assert (E : direction (after lib calls fresh) = NoDirection) by (apply Hd; now left). rewrite E in H. discriminate H.
    - intros N. destruct (direction (after lib calls fresh)) eqn:E; eauto.
      exfalso. apply N. destruct (proj1 (Hd NoDirection) eq_refl) as [K|[_ K]]; [exact K|discriminate K].
  Qed.
End C92.

(** a small pyproj: systems are numbers, points are integers, moving between systems shifts *)
Definition toy : pyproj unit nat Z := {|
  user_input g := match g with GInt z => if (z =? 4326)%Z then Good 0%nat else Bad CrsFault | GStr "EPSG:3031" => Good 1%nat | _ => Bad CrsFault end;
  epsg_code z := if (z =? 3413)%Z then Good 2%nat else Bad CrsFault;
  crs_string g := Bad ValueFault;
  int_of s := if String.eqb s "3413" then Some 3413%Z else None;
  title c := match c with 0 => "WGS 84" | 1 => "South" | _ => "North" end%nat;
  geographic c := Nat.eqb c 0;
  pair_up _ _ := Good tt;
  move a b w p := match w with Forward => Good (p + Z.of_nat b - Z.of_nat a)%Z | Inverse => Good (p - Z.of_nat b + Z.of_nat a)%Z | _ => Bad (Foreign 0) end
|}.

(** "the name of an instance is that of the system it holds" is false: a convert that does not
    find its system leaves the request as name and the former system in place, and transform
    goes on with it *)
Theorem C92_name_refuted :
  ~ (forall (lib : pyproj unit nat Z) calls c, crs (after lib calls fresh) = Some c -> name (after lib calls fresh) = Named (title lib c)).
Proof.
  intros H. specialize (H toy [Get (GStr "EPSG:3031"); Convert 5%Z (GStr "CATS2008") "F" (GInt 4326%Z)] 1%nat eq_refl). discriminate H.
Qed.

(** "transform without direction goes from the given system to the model's" is false: after a
    convert backwards it goes backwards *)
Theorem C92_forward_refuted :
  ~ (forall (lib : pyproj unit nat Z) calls src dst p e, resolves lib e src -> latest (adopts lib) calls dst -> pair_up lib src dst = Good tt ->
     snd (transform lib (after lib calls fresh) p e None) = move lib src dst Forward p).
Proof.
  intros H. specialize (H toy [Convert 5%Z (GStr "EPSG:3031") "Back" (GInt 4326%Z)] 0%nat 1%nat 5%Z (GInt 4326%Z)).
  assert (R : resolves toy (GInt 4326%Z) 0%nat) by (apply resolves_iff; reflexivity).
  assert (L : latest (adopts toy) [Convert 5%Z (GStr "EPSG:3031") "Back" (GInt 4326%Z)] 1%nat).
  { exists [], (Convert 5%Z (GStr "EPSG:3031") "Back" (GInt 4326%Z)), []. split; [reflexivity|]. split; [|constructor].
    exists (GStr "EPSG:3031"). split; [reflexivity|]. apply resolves_iff. reflexivity. }
  specialize (H R L eq_refl). vm_compute in H. discriminate H.
Qed.

(** the hypotheses can be met: a system found at each attempt, a round trip, a refused dictionary *)
Example C92_cases :
  from_input toy (GStr "EPSG:3031") = Good 1%nat /\ from_input toy (GStr "3413") = Good 2%nat /\ from_input toy (GStr "x") = Bad CrsFault
  /\ refused (user_input toy (GDict tt))
  /\ snd (convert toy fresh 5%Z (GStr "3413") "forward" (GInt 4326%Z)) = Good 7%Z
  /\ snd (convert toy fresh 7%Z (GStr "3413") "backward" (GInt 4326%Z)) = Good 5%Z
  /\ snd (convert toy fresh 5%Z (GStr "3413") "x" (GInt 4326%Z)) = Bad (Foreign 0)
  /\ snd (transform toy fresh 5%Z (GInt 4326%Z) None) = Bad AttributeFault
  /\ (forall src dst p q, move toy src dst Forward p = Good q -> move toy src dst Inverse q = Good p).
Proof.
  repeat split; try reflexivity; [right; reflexivity|]. intros src dst p q H. cbn in *. injection H as <-. f_equal. lia.
Qed.

Print Assumptions C92_found. Print Assumptions C92_get. Print Assumptions C92_held. Print Assumptions C92_transform.
Print Assumptions C92_convert. Print Assumptions C92_round_trip. Print Assumptions C92_dictionary. Print Assumptions C92_describe.
Print Assumptions C92_name_refuted. Print Assumptions C92_forward_refuted.
