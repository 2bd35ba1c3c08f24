(** C80: finding a file whatever the case of its name, and reading it by its format. *)
From Coq Require Import String Ascii List Bool Arith Lia.
From Verif Require Import PyBase StrBase LookupModel.
Import ListNotations.
Open Scope string_scope.
Open Scope list_scope.

(** names without characters that are special in regular expressions, but for the dot *)
Fixpoint plain (s : string) : Prop :=
  match s with EmptyString => True | String c s => ~ In c ["\"; "^"; "$"; "{"; "}"; "["; "]"; "|"; "("; ")"; "?"; "*"; "+"]%char /\ plain s end.
(** f begins with the name, ignoring case, where a dot stands for any character *)
Inductive begins : string -> string -> Prop :=
| begins_nil f : begins "" f
| begins_char c d n f : lower_ascii c = lower_ascii d \/ (c = "."%char /\ d <> "010"%char) -> begins n f -> begins (String c n) (String d f).

Lemma plain_repeats c s : plain (String c s) -> repetition c = None /\ special c = false.
Proof.
  intros [N _]. cbn in N. unfold repetition, special. cbn [existsb].
  repeat match goal with |- context [Ascii.eqb c ?a] => destruct (Ascii.eqb_spec c a); [subst; exfalso; tauto|] end. split; reflexivity.
Qed.
Lemma plain_specials s : plain s -> specials s = false.
Proof.
  induction s as [|c s IH]; intros H; [reflexivity|]. destruct (plain_repeats c s H) as [E1 E2]. cbn [specials]. rewrite E2. unfold repeats at 1. rewrite E1. cbn. apply IH. exact (proj2 H).
Qed.
Fixpoint pieces (s : string) : list (option ascii * times) := match s with EmptyString => [] | String c s => (atom c, Once) :: pieces s end.
Lemma plain_parse s : plain s -> parse_name s = Ok (pieces s).
Proof.
  induction s as [|c s IH]; intros H; [reflexivity|]. destruct (plain_repeats c s H) as [E1 _]. cbn [parse_name]. rewrite E1. destruct H as [_ H].
  destruct s as [|d s']; [reflexivity|]. destruct (plain_repeats d s' H) as [E2 _]. rewrite E2. rewrite (IH H). reflexivity.
Qed.
Lemma atom_fits c d : fits (atom c) d = true <-> lower_ascii c = lower_ascii d \/ (c = "."%char /\ d <> "010"%char).
Proof.
  unfold atom. destruct (Ascii.eqb_spec c ".") as [->|N]; cbn [fits].
  - destruct (Ascii.eqb_spec d "010") as [->|N]; cbn [negb]; split; auto; [discriminate|]. intros [E|[_ E]]; [discriminate E|congruence].
  - rewrite Ascii.eqb_eq. split; [auto|]. intros [E|[E _]]; [exact E|contradiction].
Qed.
Lemma pieces_matches n f : matches (pieces n) f = true <-> begins n f.
Proof.
  revert f. induction n as [|c n IH]; intros f; [cbn; split; [constructor|reflexivity]|]. cbn [pieces matches].
  destruct f as [|d f]; [split; [discriminate|intros H; inversion H]|]. rewrite andb_true_iff, atom_fits, IH. split; [intros [A B]; now constructor|intros H; inversion H; auto].
Qed.
Lemma plain_match other n f : plain n -> re_match other n f = Ok (matches (pieces n) f).
Proof. intros H. unfold re_match. rewrite plain_specials, plain_parse by exact H. reflexivity. Qed.
Lemma mapM_ok {A B} (f : A -> res B) (g : A -> B) l : (forall a, In a l -> f a = Ok (g a)) -> mapM f l = Ok (map g l).
Proof. induction l as [|a l IH]; intros H; [reflexivity|]. cbn [mapM]. rewrite H by now left. cbn [bind]. rewrite IH by (intros; apply H; now right). reflexivity. Qed.
Lemma hits_filter {A} (p : A -> bool) l : map fst (filter snd (map (fun a => (a, p a)) l)) = filter p l.
Proof. induction l as [|a l IH]; [reflexivity|]. cbn. destruct (p a); cbn; congruence. Qed.
Lemma search other names n : plain n -> ~ In n names ->
  case_insensitive other (Some names) n = match rev (filter (matches (pieces n)) names) with [] => Err FileNotFoundError | f :: _ => Ok f end.
Proof.
  intros P N. unfold case_insensitive. destruct (mem_str n names) eqn:M; [apply mem_str_In in M; contradiction|].
  rewrite (mapM_ok _ (fun f => (f, matches (pieces n) f))) by (intros a _; now rewrite plain_match). cbn [bind]. rewrite hits_filter. reflexivity.
Qed.

(** A file that is there is found under its own name, whatever the characters in it *)
Theorem C80_exists : forall other names n, In n names -> case_insensitive other (Some names) n = Ok n.
Proof. intros other names n I. unfold case_insensitive. now rewrite (proj2 (mem_str_In _ _) I). Qed.
Print Assumptions C80_exists.
(** Otherwise the last file of the directory that begins with the name *)
Theorem C80_found : forall other names n f, plain n -> ~ In n names ->
  (case_insensitive other (Some names) n = Ok f <-> exists l l', names = l ++ f :: l' /\ begins n f /\ forall g, In g l' -> ~ begins n g).
Proof.
  intros other names n f P N. rewrite search by assumption. split.
  - induction names as [|a names IH] using rev_ind; [discriminate|]. rewrite filter_app, rev_app_distr. cbn [filter].
    destruct (matches (pieces n) a) eqn:E; cbn [rev app].
    + intros [= ->]. exists names, []. split; [reflexivity|]. split; [now apply pieces_matches|intros g []].
    + intros H. destruct IH as (l & l' & -> & B & G); [intros I; apply N; apply in_app_iff; auto|exact H|]. exists l, (l' ++ [a]). split; [now rewrite <- app_assoc|]. split; [exact B|].
      intros g I. apply in_app_iff in I as [I|[<-|[]]]; [auto|]. intros Bg. apply pieces_matches in Bg. congruence.
  - intros (l & l' & -> & B & G). rewrite filter_app. cbn [filter]. rewrite (proj2 (pieces_matches n f) B).
    replace (filter (matches (pieces n)) l') with (@nil string); [now rewrite rev_app_distr|].
    symmetry. clear - G. induction l' as [|a l' IH]; [reflexivity|]. cbn [filter]. destruct (matches (pieces n) a) eqn:E; [exfalso; apply (G a); [now left|now apply pieces_matches]|].
    apply IH. intros g I. apply G. now right.
Qed.
Print Assumptions C80_found.
(** and none only if there is none *)
Theorem C80_missing : forall other names n, plain n -> ~ In n names ->
  (case_insensitive other (Some names) n = Err FileNotFoundError <-> forall f, In f names -> ~ begins n f).
Proof.
  intros other names n P N. rewrite search by assumption. split.
  - intros H f I B. apply pieces_matches in B. assert (Q : In f (filter (matches (pieces n)) names)) by (apply filter_In; auto). apply in_rev in Q.
    destruct (rev _); [destruct Q|discriminate].
  - intros H. replace (filter (matches (pieces n)) names) with (@nil string); [reflexivity|]. symmetry. clear N.
    induction names as [|a names IH]; [reflexivity|]. cbn [filter]. destruct (matches (pieces n) a) eqn:E; [exfalso; apply (H a); [now left|now apply pieces_matches]|].
    apply IH. intros f I. apply H. now right.
Qed.
Print Assumptions C80_missing.

Lemma begins_case n f : lower n = lower f -> begins n f.
Proof.
  revert f. induction n as [|c n IH]; intros [|d f] E; try discriminate; constructor; [left|apply IH]; unfold lower in E; cbn in E; now injection E.
Qed.
(** So the file of the name in another case is found, if no other file begins like it *)
Theorem C80_ignoring_case_partial : forall other names n f, plain n -> In f names -> lower f = lower n ->
  (forall g, In g names -> begins n g -> g = f) -> case_insensitive other (Some names) n = Ok f.
Proof.
  intros other names n f P I E U. destruct (in_dec string_dec n names) as [In_|N].
  - rewrite (U n In_); [apply C80_exists; exact I|]. apply begins_case. reflexivity.
  - apply C80_found; auto. apply in_split in I. 
    assert (Q : exists l l', names = l ++ f :: l' /\ ~ In f l').
    { clear - I. destruct I as (l & l' & ->). induction l' as [|a l' IH] using rev_ind; [exists l, []; split; auto|].
      destruct (string_dec a f) as [->|D]; [exists (l ++ f :: l'), []; split; [now rewrite <- app_assoc|intros []]|].
      destruct IH as (m & m' & Em & Nm). exists m, (m' ++ [a]). split; [change (f :: l' ++ [a]) with ((f :: l') ++ [a]); rewrite app_assoc, Em, <- app_assoc; reflexivity|].
      rewrite in_app_iff. cbn. intros [X|[X|[]]]; [auto|congruence]. }
    destruct Q as (l & l' & -> & Nf). exists l, l'. split; [reflexivity|]. split; [apply begins_case; congruence|].
    intros g Ig Bg. apply Nf. rewrite <- (U g); auto. apply in_app_iff. right. now right.
Qed.
Print Assumptions C80_ignoring_case_partial.

Lemma begins_more n e : begins n (n ++ e).
Proof. induction n as [|c n IH]; cbn; constructor; auto. Qed.
Lemma append_same n e : (n ++ e)%string = n -> e = "".
Proof. induction n as [|c n IH]; cbn; intros E; [exact E|]. injection E. exact IH. Qed.
(** A file whose name only begins like the one asked for is returned in its place: when
    there is none, and even when the right one is there in another case *)
Theorem C80_prefix_refuted : forall other names n e, plain n -> e <> "" -> ~ In n names ->
  case_insensitive other (Some (names ++ [(n ++ e)%string])) n = Ok (n ++ e)%string.
Proof.
  intros other names n e P E N. apply C80_found; auto.
  - rewrite in_app_iff. cbn. intros [I|[I|[]]]; [auto|]. apply append_same in I. contradiction.
  - exists names, []. split; [reflexivity|]. split; [apply begins_more|intros g []].
Qed.
Print Assumptions C80_prefix_refuted.
(** the dot before the extension stands for any character *)
Theorem C80_dot_refuted : forall other names n m d, plain (n ++ String "." m) -> d <> "010"%char -> ~ In (n ++ String "." m)%string names -> d <> "."%char ->
  case_insensitive other (Some (names ++ [(n ++ String d m)%string])) (n ++ String "." m) = Ok (n ++ String d m)%string.
Proof.
  intros other names n m d P D N D'. apply C80_found; auto.
  - rewrite in_app_iff. cbn. intros [I|[I|[]]]; [auto|]. revert I. clear - D'. induction n as [|c n IH]; cbn; intros E; [congruence|]. injection E. auto.
  - exists names, []. split; [reflexivity|]. split; [|intros g []]. clear - D. induction n as [|c n IH]; cbn; constructor; auto; clear; induction m as [|c m IH]; constructor; auto.
Qed.
Print Assumptions C80_dot_refuted.
(** names with a sign of repetition are not found in another case, or raise *)
Theorem C80_special_refuted :
  (exists names n f, In f names /\ lower f = lower n /\ forall other, case_insensitive other (Some names) n = Err FileNotFoundError) /\
  (forall other names s g, ~ In (String "+" s) names -> In g names -> specials (String "+" s) = false -> case_insensitive other (Some names) (String "+" s) = Err OtherError).
Proof.
  split.
  - exists ["A+B.nc"], "a+b.nc", "A+B.nc". split; [now left|]. split; reflexivity.
  - intros other names s g N I Sp. unfold case_insensitive. destruct (mem_str _ names) eqn:E; [apply mem_str_In in E; contradiction|].
    destruct names as [|a names]; [destruct I|]. cbn [mapM]. unfold re_match. rewrite Sp. reflexivity.
Qed.
Print Assumptions C80_special_refuted.

(** Reading by the format: one of six names as they are written; the writer of that
    format is the one of the same kind *)
Theorem C80_from_file : forall A (reader : codec -> string -> res A) other dir name format,
  match from_file reader other dir name format with
  | Ok a => exists k f, case_insensitive other dir name = Ok f /\ reader k f = Ok a /\
      In (format, k) [("ascii", Text); ("netCDF4", NetCDF); ("HDF5", HDF); ("GTiff", Tiff); ("cog", Tiff); ("parquet", Pq)]
  | Err e => (e = ValueError /\ ~ In format ["ascii"; "netCDF4"; "HDF5"; "GTiff"; "cog"; "parquet"]) \/
      (In format ["ascii"; "netCDF4"; "HDF5"; "GTiff"; "cog"; "parquet"] /\
        (case_insensitive other dir name = Err e \/ exists k f, case_insensitive other dir name = Ok f /\ reader k f = Err e /\
          In (format, k) [("ascii", Text); ("netCDF4", NetCDF); ("HDF5", HDF); ("GTiff", Tiff); ("cog", Tiff); ("parquet", Pq)]))
  end.
Proof.
  intros A reader other dir name format. unfold from_file, codec_of, mem_str. cbn [existsb].
  destruct (case_insensitive other dir name) as [f|e].
  all: destruct (String.eqb_spec format "ascii") as [->|]; [|destruct (String.eqb_spec format "netCDF4") as [->|]; [|destruct (String.eqb_spec format "HDF5") as [->|];
    [|destruct (String.eqb_spec format "GTiff") as [->|]; [|destruct (String.eqb_spec format "cog") as [->|]; [|destruct (String.eqb_spec format "parquet") as [->|]]]]]].
  all: cbn [bind orb].
  all: try (left; split; [reflexivity|cbn; intuition congruence]).
  all: try (right; split; [cbn; tauto|left; reflexivity]).
  all: match goal with |- match ?a with Ok _ => _ | Err _ => _ end => match a with ?r ?k ?f => destruct a eqn:Q; [exists k, f|right; split; [|right; exists k, f]] end end; cbn; repeat split; auto 10.
Qed.
Print Assumptions C80_from_file.

Example C80_case : forall other,
  case_insensitive other (Some ["README"; "TIDE.NC"; "tide.csv"]) "tide.nc" = Ok "TIDE.NC" /\
  case_insensitive other (Some ["TIDE.NC"; "tide.nc.old"]) "tide.nc" = Ok "tide.nc.old" /\
  case_insensitive other (Some ["tide_nc"]) "tide.nc" = Ok "tide_nc" /\
  case_insensitive other (Some ["tide.csv"]) "tide.nc" = Err FileNotFoundError /\
  case_insensitive other (Some ["tide(1).nc"]) "tide(1).nc" = Ok "tide(1).nc" /\
  from_file (fun k f => Ok (k, f)) other (Some ["A.TIF"]) "a.tif" "cog" = Ok (Tiff, "A.TIF") /\
  from_file (fun k f => Ok (k, f)) other (Some ["A.TIF"]) "a.tif" "netcdf" = Err ValueError.
Proof. intros. repeat split. Qed.
