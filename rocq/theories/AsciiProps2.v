(** C39: lines that lost values in the ascii grids of GOT and FES.
    Code: pyTMD/io/GOT.py:588-607, pyTMD/io/FES.py:640-658. *)
From Coq Require Import List Arith Bool Lia.
From Verif Require Import PyBase AsciiModel AsciiSpec AsciiProps.
Import ListNotations.

(** The lines of a row of [nlon] values of which the last was cut after its first value [v], and
    the row [v] makes when it stands for all the values of that line. *)
Definition cut_lines {A : Type} (c nlon : nat) (r : list A) (ls : list (list A)) : Prop :=
  exists full v, ls = full ++ [[v]] /\ Forall (fun l => List.length l = c) full /\
    List.length full = nlon / c /\ r = concat full ++ repeat v (nlon mod c).

Section Cut.
  Context {A : Type}.
  Variable zero : A.
  Notation file_t := (list (list (option A))).

  Lemma set_slice_one (pre : list A) v n j : List.length pre = j ->
    set_slice (pre ++ repeat zero n) j n [v] = Ok (pre ++ repeat v n).
  Proof.
    intros <-. unfold set_slice. rewrite app_length, repeat_length.
    replace (List.length pre + n - List.length pre) with n by lia. rewrite Nat.min_id.
    assert (F : firstn (List.length pre) (pre ++ repeat zero n) = pre).
    { rewrite firstn_app, Nat.sub_diag, firstn_all. cbn. apply app_nil_r. }
    assert (S : skipn (List.length pre + n) (pre ++ repeat zero n) = []).
    { apply skipn_all2. rewrite app_length, repeat_length. lia. }
    rewrite F, S, !app_nil_r. destruct (Nat.eqb_spec (List.length [v]) n) as [<-|]; reflexivity.
  Qed.

  Lemma cut_row c step file nlon l1 l2 (ra rp : list A) la lp :
    0 < c -> c <= nlon -> cut_lines c nlon ra la -> cut_lines c nlon rp lp ->
    placed file step l1 la -> placed file step l2 lp ->
    read_row zero c step file nlon l1 l2 = Ok (l1 + List.length la * step, l2 + List.length lp * step, ra, rp).
  Proof.
    intros C N (fa & va & -> & Fa & Na & ->) (fp & vp & -> & Fp & Np & ->) Pa Pp.
    apply placed_app in Pa as [Pa Qa]. apply placed_app in Pp as [Pp Qp].
    pose proof (Nat.div_mod nlon c ltac:(lia)) as DM.
    pose proof (full_lines_read zero c step file fa fp 0 l1 l2 [] [] nlon) as FL.
    rewrite Na in FL. cbn [app] in FL. unfold read_row. rewrite FL; auto; try lia; try reflexivity.
    cbn [bind]. destruct (nlon / c) as [|j] eqn:Q.
    { exfalso. apply Nat.div_small_iff in Q; lia. }
    rewrite Na in Qa. rewrite Np in Qp.
    apply placed_cons in Qa as [Ea1 _]. apply placed_cons in Qp as [Ep1 _].
    rewrite (numbers_at _ _ _ Ea1). cbn [bind].
    assert (Ka : List.length (concat fa) = S j * c).
    { rewrite <- Na. clear -Fa. induction Fa; cbn; [reflexivity|]. rewrite app_length. lia. }
    assert (Kp : List.length (concat fp) = S j * c).
    { rewrite <- Np. clear -Fp. induction Fp; cbn; [reflexivity|]. rewrite app_length. lia. }
    assert (R : nlon - S j * c = nlon mod c) by lia. rewrite R.
    replace ((j + 1) * c) with (S j * c) by lia.
    rewrite (set_slice_one (concat fa) va (nlon mod c) (S j * c) Ka). cbn [bind].
    rewrite (numbers_at _ _ _ Ep1). cbn [bind].
    rewrite (set_slice_one (concat fp) vp (nlon mod c) (S j * c) Kp). cbn [bind].
    rewrite !app_length, Na, Np. cbn [List.length].
    replace (l1 + S j * step + step) with (l1 + (S j + 1) * step) by lia.
    replace (l2 + S j * step + step) with (l2 + (S j + 1) * step) by lia.
    reflexivity.
  Qed.

  Lemma cut_rows c step file nlon amp : forall ph l1 l2 pra prp,
    0 < c -> c <= nlon -> List.length ph = List.length amp ->
    Forall2 (cut_lines c nlon) amp pra -> Forall2 (cut_lines c nlon) ph prp ->
    placed file step l1 (concat pra) -> placed file step l2 (concat prp) ->
    read_rows zero c step file nlon (List.length amp) l1 l2 = Ok (amp, ph).
  Proof.
    induction amp as [|ra amp IH]; intros [|rp ph] l1 l2 pra prp C N L WA WP PA PP; try discriminate L.
    - reflexivity.
    - inversion WA as [|? la ? pra' Wa WA']; subst. inversion WP as [|? lp ? prp' Wp WP']; subst.
      cbn [concat] in PA, PP. apply placed_app in PA as [Pa PA]. apply placed_app in PP as [Pp PP].
      cbn [List.length read_rows].
      rewrite (cut_row c step file nlon l1 l2 ra rp la lp); auto.
      cbn [bind]. rewrite (IH ph _ _ pra' prp'); auto.
  Qed.

  Lemma cut_count c nlon (field : list (list A)) per_row : Forall2 (cut_lines c nlon) field per_row ->
    List.length (concat per_row) = nlon / c * List.length field + List.length field.
  Proof.
    intros W. induction W as [|r ls field per_row (full & v & -> & _ & Lf & _) W IH]; [cbn; lia|].
    cbn [concat List.length]. rewrite !app_length, IH, Lf. cbn. lia.
  Qed.
End Cut.

(** ** C39: a grid whose rows lost all but the first value of their last line is read without an
    exception: that value stands for all those that are missing. *)
Theorem C39_cut_refuted :
  forall (A : Type) (zero : A) (nlat nlon : nat) (amp ph : list (list A)) pra prp h1 h2 h rest,
    List.length amp = nlat -> List.length ph = nlat ->
    (11 <= nlon -> Forall2 (cut_lines 11 nlon) amp pra -> Forall2 (cut_lines 11 nlon) ph prp ->
     List.length h1 = 7 -> List.length h2 = 7 ->
     read_got zero (h1 ++ on_file (concat pra) ++ h2 ++ on_file (concat prp) ++ rest) nlat nlon = Ok (amp, ph)) /\
    (30 <= nlon -> Forall2 (cut_lines 30 nlon) amp pra -> Forall2 (cut_lines 30 nlon) ph prp ->
     List.length h = 5 ->
     read_fes zero (h ++ alternate (on_file (concat pra)) (on_file (concat prp)) ++ rest) nlat nlon = Ok (amp, ph)).
Proof.
  intros A zero nlat nlon amp ph pra prp h1 h2 h rest LA LP. subst nlat. split.
  - intros N WA WP H1 H2. unfold read_got. eapply cut_rows; try eassumption; try lia.
    + apply (placed_block h1 (concat pra) (h2 ++ on_file (concat prp) ++ rest) 7 H1).
    + replace (h1 ++ on_file (concat pra) ++ h2 ++ on_file (concat prp) ++ rest)
        with ((h1 ++ on_file (concat pra) ++ h2) ++ on_file (concat prp) ++ rest) by now rewrite <- !app_assoc.
      apply placed_block. unfold on_file. rewrite !app_length, map_length, H1, H2, (cut_count 11 nlon amp pra WA). lia.
  - intros N WA WP H. unfold read_fes.
    assert (L : List.length (concat prp) = List.length (concat pra)).
    { rewrite (cut_count 30 nlon amp pra WA), (cut_count 30 nlon ph prp WP). lia. }
    destruct (placed_alternate h rest (concat pra) (concat prp) 5 L H) as [P1 P2].
    eapply cut_rows; try eassumption; lia.
Qed.
Print Assumptions C39_cut_refuted.

(** rows of 14 values whose last three came down to one *)
Example C39_cut_case :
  let h := repeat [None] 7 in
  read_got 0 (h ++ on_file [seq 1 11; [12]] ++ h ++ on_file [seq 21 11; [32]]) 1 14
  = Ok ([seq 1 11 ++ [12; 12; 12]], [seq 21 11 ++ [32; 32; 32]]) /\
  cut_lines 11 14 (seq 1 11 ++ [12; 12; 12]) [seq 1 11; [12]].
Proof.
  cbv zeta. split; [reflexivity|]. exists [seq 1 11], 12. split; [reflexivity|]. split; [repeat constructor|]. split; reflexivity.
Qed.
