(** C98, continued: the listings of each host, contents, hashes and times. *)
From Coq Require Import String Ascii List ZArith Bool Lia Permutation.
From Verif Require Import PyBase StrBase NetModel NetSpec NetProps.
Import ListNotations.
Open Scope string_scope.

(** * last components *)
Definition slashed (s : string) : Prop := exists u v, s = u ++ String "/" v.

Lemma slashed_cons c s : slashed (String c s) <-> c = "/"%char \/ slashed s.
Proof.
  split.
  - intros (u & v & E). destruct u as [|d u]; cbn in E; inversion E; subst; [now left|].
    right. now exists u, v.
  - intros [->|(u & v & ->)]; [now exists "", s|now exists (String c u), v].
Qed.

Lemma after_slash_spec s cur :
  (~ slashed s /\ after_slash s cur = cur) \/
  (exists u, s = u ++ String "/" (after_slash s cur) /\ ~ slashed (after_slash s cur)).
Proof.
  revert cur. induction s as [|c s IH]; intros cur.
  - left. split; [|reflexivity]. intros (u & v & E). destruct u; discriminate.
  - cbn [after_slash]. destruct (Ascii.eqb c "/"%char) eqn:E.
    + apply Ascii.eqb_eq in E. subst c. right.
      destruct (IH s) as [(N & R)|(u & R & N)].
      * rewrite R. now exists "".
      * exists (String "/" u). split; [cbn; congruence|exact N].
    + apply Ascii.eqb_neq in E. destruct (IH cur) as [(N & R)|(u & R & N)].
      * left. split; [|exact R]. rewrite slashed_cons. tauto.
      * right. exists (String c u). split; [cbn; congruence|exact N].
Qed.

Theorem C98_base (s : string) :
  ~ (exists u v, base s = u ++ String "/" v) /\
  (s = base s \/ exists u, s = u ++ String "/" (base s)).
Proof.
  unfold base. destruct (after_slash_spec s s) as [(N & R)|(u & R & N)].
  - rewrite R. auto.
  - split; [exact N|]. right. now exists u.
Qed.

(** * the hosts *)
Theorem C98_ftp (M : Type) (basename : bool) (pattern : option (string -> bool)) (sort : bool)
  (nlst : list string) (mdtm : string -> option M) :
  let rows := map (fun n => (if basename then base n else n, mdtm n)) nlst in
  exists out, ftp_list basename pattern sort nlst mdtm = Ok (map fst out, map snd out) /\
    (sort = false -> out = chosen pattern rows) /\
    (sort = true -> Permutation (chosen pattern rows) out /\ in_order out /\
       forall n, of_name n out = of_name n (chosen pattern rows)).
Proof.
  intros rows. destruct (C98_listing (option M) pattern sort rows) as (out & E & H).
  exists out. split; [|exact H]. rewrite <- E. unfold ftp_list, rows. rewrite !map_map.
  cbn [fst snd]. destruct basename; [reflexivity|]. now rewrite map_id.
Qed.

Theorem C98_http (M : Type) (pattern : option (string -> bool)) (sort : bool)
  (rows : list (option (string * M))) :
  let page := map (fun r => match r with Some (n, t) => (Some n, Some t) | None => (None, None) end) rows in
  let rows := flat_map (fun r => match r with Some x => [x] | None => [] end) rows in
  exists out, http_list pattern sort page = Ok (map fst out, map snd out) /\
    (sort = false -> out = chosen pattern rows) /\
    (sort = true -> Permutation (chosen pattern rows) out /\ in_order out /\
       forall n, of_name n out = of_name n (chosen pattern rows)).
Proof.
  intros page rows'. destruct (C98_listing M pattern sort rows') as (out & E & H).
  exists out. split; [|exact H]. rewrite <- E. unfold http_list. f_equal.
  - unfold page, rows', filter_some. clear. induction rows as [|[[n t]|] rows IH]; cbn in *; congruence.
  - unfold page, rows', filter_some. clear. induction rows as [|[[n t]|] rows IH]; cbn in *; congruence.
Qed.

(** a row with a name and no time should go with no time: it goes with the time
    of another row, or is an exception *)
Theorem C98_http_refuted (M : Type) (a b : string) (t : M) :
  http_list None false [(Some a, None); (Some b, Some t)] = Ok ([a; b], [t]) /\
  http_list None true [(Some a, None); (Some b, Some t)] = Err IndexError.
Proof.
  split; [reflexivity|]. unfold http_list, listed. cbn.
  destruct (String.leb a b); reflexivity.
Qed.

Theorem C98_cddis (M : Type) (pattern : option (string -> bool)) (sort : bool)
  (dirs : list string) (files : list (string * option M)) :
  let rows := (map (fun d => (d, None)) dirs ++ files)%list in
  exists out, cddis_list pattern sort dirs (map fst files) (map snd files)
      = Ok (map fst out, map snd out) /\
    (sort = false -> out = chosen pattern rows) /\
    (sort = true -> Permutation (chosen pattern rows) out /\ in_order out /\
       forall n, of_name n out = of_name n (chosen pattern rows)).
Proof.
  intros rows. destruct (C98_listing (option M) pattern sort rows) as (out & E & H).
  exists out. split; [|exact H]. rewrite <- E. unfold cddis_list, rows. rewrite !map_app, !map_map.
  cbn [fst snd]. rewrite map_id. f_equal. f_equal.
  clear. induction dirs as [|d dirs IH]; cbn; congruence.
Qed.

Theorem C98_iers (M : Type) (rows : list (string * M)) :
  iers_list (map fst rows) (map snd rows) = (map fst (rev rows), map snd (rev rows)).
Proof. unfold iers_list. now rewrite !map_rev. Qed.

Lemma uhslc_listed pattern sort names :
  uhslc_list pattern sort names = (do nt <- listed pattern sort names names ;; Ok (fst nt)).
Proof.
  unfold uhslc_list, listed. destruct pattern as [search|]; cbv zeta.
  - destruct (mapM _ _) as [n|e]; [|reflexivity]. cbn [bind fst snd].
    destruct sort; [|reflexivity]. destruct (mapM _ _) as [n'|e]; reflexivity.
  - cbn [bind fst snd]. destruct sort; [|reflexivity].
    destruct (mapM _ _) as [n'|e]; reflexivity.
Qed.

Theorem C98_uhslc (pattern : option (string -> bool)) (sort : bool) (names : list string) :
  let want := match pattern with None => names | Some search => filter search names end in
  exists out, uhslc_list pattern sort names = Ok out /\
    (sort = false -> out = want) /\
    (sort = true -> Permutation want out /\
       forall i j a b, (i <= j)%nat -> nth_error out i = Some a -> nth_error out j = Some b ->
         no_later a b).
Proof.
  intros want.
  destruct (C98_listing string pattern sort (map (fun n => (n, n)) names)) as (out & E & F & P).
  rewrite !map_map in E. cbn [fst snd] in E. rewrite !map_id in E.
  assert (W : map fst (chosen pattern (map (fun n => (n, n)) names)) = want).
  { unfold want, chosen. destruct pattern as [search|].
    - clear. induction names as [|n l IH]; [reflexivity|]. cbn. destruct (search n); cbn; congruence.
    - rewrite map_map. apply map_id. }
  exists (map fst out). rewrite uhslc_listed, E. split; [reflexivity|]. split.
  - intros ->. rewrite F by reflexivity. exact W.
  - intros ->. destruct (P eq_refl) as (Pe & Or & _). split.
    + rewrite <- W. now apply Permutation_map.
    + clear -Or. induction out as [|x out IH]; intros i j a b Hij Hi Hj.
      * destruct i; discriminate.
      * destruct Or as (Hx & Or). destruct i as [|i], j as [|j]; cbn in Hi, Hj.
        -- injection Hi as <-. injection Hj as <-.
           clear. induction (fst x); [constructor|now apply nl_same].
        -- injection Hi as <-. rewrite nth_error_map in Hj.
           destruct (nth_error out j) as [y|] eqn:Ej; [|discriminate].
           injection Hj as <-. apply Hx. eapply nth_error_In; eauto.
        -- lia.
        -- apply (IH Or i j); auto. lia.
Qed.

(** * contents *)
Lemma copy_loop_all fuel n b : (0 < n)%nat -> (length b < fuel)%nat -> copy_loop fuel n b = b.
Proof.
  intros Hn. revert b. induction fuel as [|k IH]; intros b Hf; [lia|].
  cbn [copy_loop]. destruct b as [|c b]; [now rewrite firstn_nil|].
  destruct n as [|n]; [lia|]. cbn [firstn skipn].
  change ((c :: firstn n b) ++ copy_loop k (S n) (skipn n b))%list
    with (c :: (firstn n b ++ copy_loop k (S n) (skipn n b)))%list.
  rewrite IH; [now rewrite firstn_skipn|]. rewrite skipn_length. cbn in Hf. lia.
Qed.

(** copying by parts copies everything, whatever the size of the parts *)
Theorem C98_copy (chunk : Z) (b : list ascii) : copyfileobj chunk b = b.
Proof.
  unfold copyfileobj. destruct (chunk <? 0)%Z eqn:E; [reflexivity|].
  apply Z.ltb_ge in E. apply copy_loop_all; [|lia].
  destruct (chunk =? 0)%Z eqn:E0; [|apply Z.eqb_neq in E0; lia].
  replace 65536%Z with (Z.of_nat (Z.to_nat 65536)) by (apply Z2Nat.id; lia).
  rewrite Nat2Z.id. assert (0 < 65536)%Z by lia. lia.
Qed.

(** what from_http and from_cddis return and write *)
Theorem C98_from_http (digest : string -> list ascii -> string) (now chunk : Z)
  (data : list ascii) (local : option string) (hash : string) (f : files) :
  let '(buffer, f') := from_http digest now data local hash chunk f in
  buffer = data /\
  forall q, f' q =
    if string_dec hash (digest "md5" data) then f q
    else match local with
         | Some p => if string_dec p "" then f q
                     else if string_dec q p then Some (data, now) else f q
         | None => f q
         end.
Proof.
  unfold from_http. rewrite !C98_copy. destruct local as [p|].
  - destruct (p =? "") eqn:Ep; cbn [negb andb].
    + apply String.eqb_eq in Ep. subst. split; [reflexivity|]. intros q.
      destruct (string_dec hash _); [reflexivity|]. destruct (string_dec "" ""); congruence.
    + apply String.eqb_neq in Ep. destruct (hash =? digest "md5" data) eqn:Eh; cbn [negb].
      * apply String.eqb_eq in Eh. split; [reflexivity|]. intros q.
        destruct (string_dec hash _); congruence.
      * apply String.eqb_neq in Eh. split; [reflexivity|]. intros q. unfold write.
        destruct (string_dec hash _); [congruence|]. destruct (string_dec p ""); [congruence|].
        destruct (string_dec q p) as [->|N]; [now rewrite String.eqb_refl|].
        apply String.eqb_neq in N. now rewrite N.
  - split; [reflexivity|]. intros q. destruct (string_dec hash _); reflexivity.
Qed.

(** with the time of the host, from_ftp does the same and keeps the time *)
Theorem C98_from_ftp (digest : string -> list ascii -> string) (now chunk : Z)
  (data : list ascii) (mtime : option Z) (local : option string) (hash : string) (f : files) :
  let '(r, f') := from_ftp digest now data mtime local hash chunk f in
  (r = Ok data \/
   r = Err TypeError /\ mtime = None /\ hash <> digest "md5" data /\
   exists p, local = Some p /\ p <> "") /\
  forall q, f' q =
    if string_dec hash (digest "md5" data) then f q
    else match local with
         | Some p => if string_dec p "" then f q
                     else if string_dec q p
                          then Some (data, match mtime with Some t => t | None => now end)
                          else f q
         | None => f q
         end.
Proof.
  unfold from_ftp. rewrite !C98_copy. destruct local as [p|].
  - destruct (p =? "") eqn:Ep; cbn [negb andb].
    + apply String.eqb_eq in Ep. subst. split; [now left|]. intros q.
      destruct (string_dec hash _); [reflexivity|]. destruct (string_dec "" ""); congruence.
    + apply String.eqb_neq in Ep. destruct (hash =? digest "md5" data) eqn:Eh; cbn [negb].
      * apply String.eqb_eq in Eh. split; [now left|]. intros q.
        destruct (string_dec hash _); congruence.
      * apply String.eqb_neq in Eh. destruct mtime as [t|].
        -- split; [now left|]. intros q. unfold write.
           destruct (string_dec hash _); [congruence|]. destruct (string_dec p ""); [congruence|].
           destruct (string_dec q p) as [->|N]; [now rewrite String.eqb_refl|].
           apply String.eqb_neq in N. now rewrite N.
        -- split; [right; eauto 6|]. intros q. unfold write.
           destruct (string_dec hash _); [congruence|]. destruct (string_dec p ""); [congruence|].
           destruct (string_dec q p) as [->|N]; [now rewrite String.eqb_refl|].
           apply String.eqb_neq in N. now rewrite N.
  - split; [now left|]. intros q. destruct (string_dec hash _); reflexivity.
Qed.

(** get_hash, then from_http with that hash: the file has the hash of the host,
    is written only if it had another, and a second time nothing is written *)
Theorem C98_hash (digest : string -> list ascii -> string) (available : list string)
  (now now' chunk : Z) (data : list ascii) (p : string) (f : files) :
  In "md5" available -> p <> "" -> digest "md5" data <> "" ->
  exists h f' h', get_hash digest available f (Path p) "md5" = Ok h /\
    from_http digest now data (Some p) h chunk f = (data, f') /\
    get_hash digest available f' (Path p) "md5" = Ok h' /\
    h' = digest "md5" data /\
    (exists b t, f' p = Some (b, t) /\ digest "md5" b = digest "md5" data) /\
    (forall b t, f p = Some (b, t) -> digest "md5" b = digest "md5" data -> forall q, f' q = f q) /\
    from_http digest now' data (Some p) h' chunk f' = (data, f').
Proof.
  intros Ha Hp Hd. apply mem_str_In in Ha.
  assert (G : forall g, get_hash digest available g (Path p) "md5" =
    Ok match g p with Some (b, _) => digest "md5" b | None => "" end).
  { intros g. unfold get_hash. destruct (g p) as [[b t]|]; [now rewrite Ha|reflexivity]. }
  rewrite G. set (h := match f p with Some (b, _) => digest "md5" b | None => "" end).
  assert (W : forall n g, from_http digest n data (Some p) (digest "md5" data) chunk g = (data, g)).
  { intros n g. unfold from_http. rewrite !C98_copy, String.eqb_refl. cbn.
    now rewrite andb_false_r. }
  apply String.eqb_neq in Hp.
  destruct (h =? digest "md5" data) eqn:Eh.
  - apply String.eqb_eq in Eh. exists h, f, h. rewrite Eh. rewrite W, G.
    fold h. rewrite Eh. repeat split; auto.
    unfold h in Eh. destruct (f p) as [[b t]|]; [eauto|congruence].
  - exists h, (write p data now f), (digest "md5" data). split; [reflexivity|].
    assert (Ew : write p data now f p = Some (data, now))
      by (unfold write; now rewrite String.eqb_refl).
    split; [unfold from_http; rewrite !C98_copy, Hp, Eh; reflexivity|].
    rewrite G, Ew. repeat split; auto.
    + eauto.
    + intros b t Ef Eb. exfalso. apply String.eqb_neq in Eh. apply Eh. unfold h. now rewrite Ef.
Qed.

(** without a hash the file is always that of the host *)
Theorem C98_no_hash (digest : string -> list ascii -> string) (now chunk : Z)
  (data : list ascii) (p : string) (f : files) :
  p <> "" -> digest "md5" data <> "" ->
  exists f', from_http digest now data (Some p) "" chunk f = (data, f') /\
    f' p = Some (data, now).
Proof.
  intros Hp Hd. pose proof (C98_from_http digest now chunk data (Some p) "" f) as H.
  destruct (from_http digest now data (Some p) "" chunk f) as [b f']. destruct H as (-> & H).
  exists f'. split; [reflexivity|]. rewrite H.
  destruct (string_dec "" _); [congruence|]. destruct (string_dec p ""); [congruence|].
  destruct (string_dec p p); congruence.
Qed.

(** a kernel should be stored under its own name: given a local file and no
    name, the default kernel goes to a file of any name *)
Theorem C98_kernel_refuted (data name : string -> string) (l : string) :
  from_jpl_ssd data name (Some "de440s.bsp") (Some l) = Ok ("de440s.bsp", l).
Proof. reflexivity. Qed.
Theorem C98_kernel (data name : string -> string) (k l : string) :
  (forall k, name (data k) = k) ->
  (exists remote local, from_jpl_ssd data name (Some k) None = Ok (remote, local) /\
     remote = k /\ name local = remote) /\
  (exists remote local, from_jpl_ssd data name None (Some l) = Ok (remote, local) /\
     local = l /\ name local = remote) /\
  from_jpl_ssd data name None None = Err TypeError.
Proof.
  intros H. split; [|split; [|reflexivity]].
  - exists k, (data k). auto.
  - exists (name l), l. auto.
Qed.
