(** C39: the ascii grids of GOT and FES. *)
From Coq Require Import List Arith Bool Lia.
From Verif Require Import PyBase AsciiModel AsciiSpec.
Import ListNotations.

Section Proofs.
  Context {A : Type}.
  Variable zero : A.
  Notation file_t := (list (list (option A))).

  Lemma numbers_at (file : file_t) l v : nth_error file l = Some (map Some v) -> numbers file l = Ok v.
  Proof.
    unfold numbers. intros ->. induction v as [|x v IH]; cbn; [reflexivity|]. now rewrite IH.
  Qed.

  Lemma set_slice_next (pre vals : list A) n j :
    List.length pre = j -> List.length vals <= n ->
    set_slice (pre ++ repeat zero n) j (List.length vals) vals
    = Ok ((pre ++ vals) ++ repeat zero (n - List.length vals)).
  Proof.
    intros <- L. unfold set_slice. rewrite app_length, repeat_length.
    rewrite Nat.min_l by lia. rewrite Nat.eqb_refl. f_equal.
    rewrite firstn_app, Nat.sub_diag, firstn_all. cbn. rewrite app_nil_r, <- app_assoc. do 2 f_equal.
    rewrite skipn_app. rewrite skipn_all2 by lia. cbn.
    replace (List.length pre + List.length vals - List.length pre) with (List.length vals) by lia.
    assert (K : forall m k, skipn m (repeat zero k) = repeat zero (k - m)).
    { clear. induction m as [|m IH]; intros [|k]; cbn; auto. }
    apply K.
  Qed.

  (** the lines [la] are in the file at l1, l1+step, ... *)
  Definition placed (file : file_t) (step l : nat) (lines : list (list A)) : Prop :=
    forall k v, nth_error lines k = Some v -> nth_error file (l + k * step) = Some (map Some v).

  Lemma placed_cons file step l v lines : placed file step l (v :: lines) ->
    nth_error file l = Some (map Some v) /\ placed file step (l + step) lines.
  Proof.
    intros H. split.
    - specialize (H 0 v eq_refl). cbn in H. now rewrite Nat.add_0_r in H.
    - intros k w E. specialize (H (S k) w E). rewrite <- H. f_equal. cbn. lia.
  Qed.
  Lemma placed_app file step l a b : placed file step l (a ++ b) ->
    placed file step l a /\ placed file step (l + List.length a * step) b.
  Proof.
    intros H. split.
    - intros k v E. apply H. rewrite nth_error_app1; [assumption|]. apply nth_error_Some. congruence.
    - intros k v E. specialize (H (List.length a + k) v). rewrite nth_error_app2 in H by lia.
      replace (List.length a + k - List.length a) with k in H by lia. specialize (H E).
      rewrite <- H. f_equal. lia.
  Qed.

  Lemma full_lines_read c step file fa : forall fp j l1 l2 pa pp n,
    0 < c ->
    Forall (fun l => List.length l = c) fa -> Forall (fun l => List.length l = c) fp ->
    List.length fp = List.length fa -> List.length pa = j * c -> List.length pp = j * c ->
    List.length fa * c <= n ->
    placed file step l1 fa -> placed file step l2 fp ->
    full_lines c step file (List.length fa) j l1 l2 (pa ++ repeat zero n) (pp ++ repeat zero n)
    = Ok (l1 + List.length fa * step, l2 + List.length fa * step,
          (pa ++ concat fa) ++ repeat zero (n - List.length fa * c),
          (pp ++ concat fp) ++ repeat zero (n - List.length fa * c)).
  Proof.
    induction fa as [|va fa IH]; intros [|vp fp] j l1 l2 pa pp n C FA FP L La Lp N P1 P2; try discriminate L.
    - cbn. rewrite !Nat.add_0_r, !app_nil_r, Nat.sub_0_r. reflexivity.
    - inversion FA as [|? ? Ca FA']; subst. inversion FP as [|? ? Cp FP']; subst.
      apply placed_cons in P1 as [E1 P1]. apply placed_cons in P2 as [E2 P2]. cbn [List.length] in *.
      cbn [full_lines]. rewrite (numbers_at _ _ _ E1). cbn [bind].
      pose proof (set_slice_next pa va n (j * List.length va)) as SA. rewrite SA by lia. cbn [bind].
      rewrite (numbers_at _ _ _ E2). cbn [bind].
      pose proof (set_slice_next pp vp n (j * List.length va)) as SP. rewrite Cp in SP. rewrite SP by lia. cbn [bind].
      rewrite (IH fp (S j) (l1 + step) (l2 + step) (pa ++ va) (pp ++ vp)); auto.
      + f_equal. cbn [concat]. rewrite <- !app_assoc.
        replace (n - List.length va - List.length fa * List.length va) with
          (n - S (List.length fa) * List.length va) by lia.
        replace (l1 + step + List.length fa * step) with (l1 + S (List.length fa) * step) by lia.
        replace (l2 + step + List.length fa * step) with (l2 + S (List.length fa) * step) by lia.
        reflexivity.
      + rewrite app_length. lia.
      + rewrite app_length. lia.
      + lia.
  Qed.

  Lemma row_shape c nlon (row : list A) lines : 0 < c -> nlon mod c <> 0 -> List.length row = nlon ->
    row_lines c row lines ->
    exists full part, lines = full ++ [part] /\ Forall (fun l => List.length l = c) full /\
      List.length full = nlon / c /\ List.length part = nlon mod c /\ row = concat full ++ part.
  Proof.
    intros C M L (full & part & -> & F & [P1 P2] & ->).
    assert (K : List.length (concat full) = List.length full * c).
    { clear -F. induction F; cbn; [reflexivity|]. rewrite app_length. lia. }
    rewrite app_length, K in L.
    assert (P3 : List.length part < c).
    { destruct (Nat.eq_dec (List.length part) c) as [E|]; [|lia]. exfalso. apply M. subst nlon. rewrite E.
      replace (List.length full * c + c) with ((List.length full + 1) * c) by lia. apply Nat.mod_mul. lia. }
    exists full, part. split; [reflexivity|]. split; [assumption|].
    assert (D : nlon / c = List.length full /\ nlon mod c = List.length part).
    { subst nlon. split.
      - symmetry. apply (Nat.div_unique _ c _ (List.length part)); lia.
      - symmetry. apply (Nat.mod_unique _ c (List.length full)); lia. }
    destruct D as [-> ->]. auto.
  Qed.

  Lemma read_row_ok c step file nlon l1 l2 (ra rp : list A) la lp :
    0 < c -> c <= nlon -> nlon mod c <> 0 ->
    List.length ra = nlon -> List.length rp = nlon -> row_lines c ra la -> row_lines c rp lp ->
    placed file step l1 la -> placed file step l2 lp ->
    read_row zero c step file nlon l1 l2
    = Ok (l1 + List.length la * step, l2 + List.length lp * step, ra, rp)
    /\ List.length la = nlon / c + 1 /\ List.length lp = nlon / c + 1.
  Proof.
    intros C N M La Lp Wa Wp Pa Pp.
    destruct (row_shape c nlon ra la C M La Wa) as (fa & ta & -> & Fa & Na & Ta & Ea).
    destruct (row_shape c nlon rp lp C M Lp Wp) as (fp & tp & -> & Fp & Np & Tp & Ep).
    apply placed_app in Pa as [Pa Qa]. apply placed_app in Pp as [Pp Qp].
    pose proof (Nat.div_mod nlon c ltac:(lia)) as DM.
    pose proof (full_lines_read c step file fa fp 0 l1 l2 [] [] nlon) as FL.
    rewrite Na in FL. cbn [app] in FL. unfold read_row. rewrite FL; auto; try lia; try reflexivity.
    - cbn [bind]. destruct (nlon / c) as [|j] eqn:Q.
      { exfalso. apply Nat.div_small_iff in Q; lia. }
      rewrite Na in Qa. rewrite Np in Qp.
      apply placed_cons in Qa as [Ea1 _]. apply placed_cons in Qp as [Ep1 _].
      rewrite (numbers_at _ _ _ Ea1). cbn [bind].
      assert (Ka : List.length (concat fa) = S j * c).
      { rewrite <- Na. clear -Fa. induction Fa; cbn; [reflexivity|]. rewrite app_length. lia. }
      assert (Kp : List.length (concat fp) = S j * c).
      { rewrite <- Np. clear -Fp. induction Fp; cbn; [reflexivity|]. rewrite app_length. lia. }
      assert (R : nlon - S j * c = nlon mod c) by lia. rewrite R.
      replace ((j + 1) * c) with (S j * c) by lia.
      pose proof (set_slice_next (concat fa) ta (nlon mod c) (S j * c) Ka) as SA. rewrite Ta in SA.
      rewrite SA by lia. cbn [bind]. rewrite (numbers_at _ _ _ Ep1). cbn [bind].
      pose proof (set_slice_next (concat fp) tp (nlon mod c) (S j * c) Kp) as SP. rewrite Tp in SP.
      rewrite SP by lia. cbn [bind]. rewrite Nat.sub_diag. cbn [repeat]. rewrite !app_nil_r.
      rewrite <- Ea, <- Ep, !app_length. cbn [List.length]. rewrite Na, Np. split; [|split; lia].
      replace (l1 + S j * step + step) with (l1 + (S j + 1) * step) by lia.
      replace (l2 + S j * step + step) with (l2 + (S j + 1) * step) by lia.
      reflexivity.
  Qed.

  Lemma read_rows_ok c step file nlon amp : forall ph l1 l2 pra prp,
    0 < c -> c <= nlon -> nlon mod c <> 0 ->
    Forall (fun r => List.length r = nlon) amp -> Forall (fun r => List.length r = nlon) ph ->
    List.length ph = List.length amp ->
    Forall2 (row_lines c) amp pra -> Forall2 (row_lines c) ph prp ->
    placed file step l1 (concat pra) -> placed file step l2 (concat prp) ->
    read_rows zero c step file nlon (List.length amp) l1 l2 = Ok (amp, ph).
  Proof.
    induction amp as [|ra amp IH]; intros [|rp ph] l1 l2 pra prp C N M FA FP L WA WP PA PP; try discriminate L.
    - reflexivity.
    - inversion FA; subst. inversion FP; subst.
      inversion WA as [|? la ? pra' Wa WA']; subst. inversion WP as [|? lp ? prp' Wp WP']; subst.
      cbn [concat] in PA, PP. apply placed_app in PA as [Pa PA]. apply placed_app in PP as [Pp PP].
      cbn [List.length read_rows].
      destruct (read_row_ok c step file (List.length ra) l1 l2 ra rp la lp) as [R _]; auto.
      rewrite R. cbn [bind]. rewrite (IH ph _ _ pra' prp'); auto.
  Qed.

  Lemma count_lines c nlon (field : list (list A)) per_row :
    0 < c -> nlon mod c <> 0 -> Forall (fun r => List.length r = nlon) field ->
    Forall2 (row_lines c) field per_row ->
    List.length (concat per_row) = nlon / c * List.length field + List.length field.
  Proof.
    intros C M F W. induction W as [|r ls field per_row Wr W IH]; [cbn; lia|].
    inversion F; subst. cbn [concat List.length]. rewrite app_length, IH by assumption.
    destruct (row_shape c (List.length r) r ls C M eq_refl Wr) as (full & part & -> & _ & Lf & _).
    rewrite app_length, Lf. cbn. lia.
  Qed.

  Lemma placed_block (h : file_t) lines rest l : List.length h = l ->
    placed (h ++ on_file lines ++ rest) 1 l lines.
  Proof.
    intros <- k v E. rewrite Nat.mul_1_r, nth_error_app2 by lia.
    replace (List.length h + k - List.length h) with k by lia.
    unfold on_file. rewrite nth_error_app1 by (rewrite map_length; apply nth_error_Some; congruence).
    now apply map_nth_error.
  Qed.
  Lemma placed_alternate (h rest : file_t) la : forall lp l, List.length lp = List.length la -> List.length h = l ->
    placed (h ++ alternate (on_file la) (on_file lp) ++ rest) 2 l la /\
    placed (h ++ alternate (on_file la) (on_file lp) ++ rest) 2 (S l) lp.
  Proof.
    intros lp l L <-.
    assert (K : forall la lp, List.length lp = List.length la -> forall k v,
      (nth_error la k = Some v ->
       nth_error (alternate (on_file la) (on_file lp) ++ rest) (k * 2) = Some (map Some v)) /\
      (nth_error lp k = Some v ->
       nth_error (alternate (on_file la) (on_file lp) ++ rest) (S (k * 2)) = Some (map Some v))).
    { clear. induction la as [|a la IH]; intros [|p lp] L k v; try discriminate L.
      - destruct k; split; discriminate.
      - injection L as L. destruct k; cbn.
        + split; congruence.
        + apply IH. assumption. }
    split; intros k v E.
    - rewrite nth_error_app2 by lia. replace (List.length h + k * 2 - List.length h) with (k * 2) by lia.
      now apply (K la lp L k v).
    - rewrite nth_error_app2 by lia. replace (S (List.length h) + k * 2 - List.length h) with (S (k * 2)) by lia.
      now apply (K la lp L k v).
  Qed.
End Proofs.

(** ** C39: a GOT grid whose rows need at least one full line and end with a
    shorter one is read back exactly, amplitudes and phases. *)
Theorem C39_got_partial :
  forall (A : Type) (zero : A) (nlat nlon : nat) amp ph file,
    sized nlat nlon amp -> sized nlat nlon ph -> got_file amp ph file ->
    11 <= nlon -> nlon mod 11 <> 0 ->
    read_got zero file nlat nlon = Ok (amp, ph).
Proof.
  intros A zero nlat nlon amp ph file [LA FA] [LP FP] (h1 & h2 & la & lp & rest & H1 & H2 & [pra [WA ->]] & [prp [WP ->]] & ->) N M.
  unfold read_got. rewrite <- LA.
  eapply read_rows_ok; try eassumption; try lia.
  - apply (placed_block h1 (concat pra) (h2 ++ on_file (concat prp) ++ rest) 7 H1).
  - rewrite app_assoc, app_assoc. rewrite <- (app_assoc (h1 ++ on_file (concat pra))).
    replace ((h1 ++ on_file (concat pra)) ++ h2 ++ on_file (concat prp) ++ rest)
      with (((h1 ++ on_file (concat pra)) ++ h2) ++ on_file (concat prp) ++ rest) by now rewrite !app_assoc.
    apply placed_block. rewrite !app_length, H1, H2. unfold on_file. rewrite map_length.
    rewrite (count_lines 11 nlon amp pra); try assumption; lia.
Qed.
Print Assumptions C39_got_partial.

(** ** C39: the same for FES with 30 values a line. *)
Theorem C39_fes_partial :
  forall (A : Type) (zero : A) (nlat nlon : nat) amp ph file,
    sized nlat nlon amp -> sized nlat nlon ph -> fes_file amp ph file ->
    30 <= nlon -> nlon mod 30 <> 0 ->
    read_fes zero file nlat nlon = Ok (amp, ph).
Proof.
  intros A zero nlat nlon amp ph file [LA FA] [LP FP] (h & la & lp & rest & H & [pra [WA ->]] & [prp [WP ->]] & ->) N M.
  unfold read_fes. rewrite <- LA.
  assert (L : List.length (concat prp) = List.length (concat pra)).
  { rewrite (count_lines 30 nlon amp pra), (count_lines 30 nlon ph prp); try assumption; lia. }
  destruct (placed_alternate h rest (concat pra) (concat prp) 5 L H) as [P1 P2].
  eapply read_rows_ok; try eassumption; lia.
Qed.
Print Assumptions C39_fes_partial.

(** A case: 13 columns, 2 rows. *)
Example C39_got_case :
  let amp := [seq 0 13; seq 20 13] in
  let ph := [seq 40 13; seq 60 13] in
  let h := repeat [None] 7 in
  let file := h ++ on_file [seq 0 11; [11; 12]; seq 20 11; [31; 32]]
                ++ h ++ on_file [seq 40 11; [51; 52]; seq 60 11; [71; 72]] in
  got_file amp ph file /\ read_got 0 file 2 13 = Ok (amp, ph).
Proof.
  cbv zeta. split; [|reflexivity].
  exists (repeat [None] 7), (repeat [None] 7), [seq 0 11; [11; 12]; seq 20 11; [31; 32]],
    [seq 40 11; [51; 52]; seq 60 11; [71; 72]], [].
  split; [reflexivity|]. split; [reflexivity|]. split; [|split].
  - exists [[seq 0 11; [11; 12]]; [seq 20 11; [31; 32]]]. split; [|reflexivity].
    constructor; [exists [seq 0 11], [11; 12]|constructor; [exists [seq 20 11], [31; 32]|constructor]];
      (split; [reflexivity|]; split; [repeat constructor|]; split; [cbn; lia|reflexivity]).
  - exists [[seq 40 11; [51; 52]]; [seq 60 11; [71; 72]]]. split; [|reflexivity].
    constructor; [exists [seq 40 11], [51; 52]|constructor; [exists [seq 60 11], [71; 72]|constructor]];
      (split; [reflexivity|]; split; [repeat constructor|]; split; [cbn; lia|reflexivity]).
  - now rewrite app_nil_r.
Qed.

(** ** Findings *)
(** A grid narrower than one line cannot be read: the loop variable is unbound. *)
Theorem C39_narrow_refuted :
  forall (A : Type) (zero : A) (file : list (list (option A))) nlat nlon, 0 < nlat ->
    (nlon < 11 -> read_got zero file nlat nlon = Err NameError) /\
    (nlon < 30 -> read_fes zero file nlat nlon = Err NameError).
Proof.
  intros A zero file [|nlat] nlon L; [lia|]. split; intros N; unfold read_got, read_fes; cbn [read_rows]; unfold read_row.
  - rewrite (Nat.div_small nlon 11) by assumption. reflexivity.
  - rewrite (Nat.div_small nlon 30) by assumption. reflexivity.
Qed.
Print Assumptions C39_narrow_refuted.

(** A grid whose rows fill their lines exactly cannot be read: a further line is
    looked for. *)
Section Exact.
  Context {A : Type}.
  Variable zero : A.
  Lemma exact_row c step file nlon l1 l2 (ra rp : list A) la lp next :
    0 < c -> c <> 1 -> nlon <> 0 -> nlon mod c = 0 ->
    List.length ra = nlon -> List.length rp = nlon -> row_lines c ra la -> row_lines c rp lp ->
    List.length next = c -> placed file step l1 (la ++ [next]) -> placed file step l2 lp ->
    read_row zero c step file nlon l1 l2 = Err ValueError.
  Proof.
    intros C C1 N0 M La Lp (fa & ta & -> & Fa & [Ta1 Ta2] & ->) (fp & tp & -> & Fp & [Tp1 Tp2] & ->) Ln Pa Pp.
    assert (Ka : forall (f : list (list A)), Forall (fun l => List.length l = c) f ->
      List.length (concat f) = List.length f * c).
    { clear. intros f F. induction F; cbn; [reflexivity|]. rewrite app_length. lia. }
    rewrite app_length, (Ka _ Fa) in La. rewrite app_length, (Ka _ Fp) in Lp.
    assert (D : forall k r, 0 < r <= c -> k * c + r = nlon -> r = c /\ S k = nlon / c).
    { intros k r Hr E. assert (r = c).
      { destruct (Nat.eq_dec r c); [assumption|]. exfalso.
        assert (X : nlon mod c = r). { symmetry. apply (Nat.mod_unique nlon c k); lia. } lia. }
      split; [assumption|]. apply (Nat.div_unique nlon c (S k) 0); lia. }
    destruct (D _ _ (conj Ta1 Ta2) La) as [Ta Qa]. destruct (D _ _ (conj Tp1 Tp2) Lp) as [Tp Qp].
    apply placed_app in Pa as [Pa Qa'].
    pose proof (full_lines_read zero c step file (fa ++ [ta]) (fp ++ [tp]) 0 l1 l2 [] [] nlon) as FL.
    rewrite !app_length in FL. cbn [List.length] in FL. replace (List.length fa + 1) with (nlon / c) in FL by lia.
    pose proof (Nat.div_mod nlon c ltac:(lia)) as DM.
    unfold read_row. cbn [app] in FL. rewrite FL; auto; try lia; try reflexivity.
    - cbn [bind]. destruct (nlon / c) as [|j] eqn:Q; [discriminate|].
      apply placed_cons in Qa' as [E1 _]. rewrite app_length in E1. cbn [List.length] in E1.
      replace (List.length fa + 1) with (S j) in E1 by lia. rewrite (numbers_at _ _ _ E1). cbn [bind].
      rewrite M. unfold set_slice at 1. cbn [Nat.min]. rewrite Ln.
      destruct (Nat.eqb_spec c 0); [lia|]. destruct next as [|x [|y next]]; cbn in Ln; try lia. reflexivity.
    - apply Forall_app. split; [assumption|]. constructor; [assumption|constructor].
    - apply Forall_app. split; [assumption|]. constructor; [assumption|constructor].
  Qed.
End Exact.

Lemma exact_count {A : Type} c nlon (r : list A) ls : 0 < c -> nlon mod c = 0 -> nlon <> 0 ->
  List.length r = nlon -> row_lines c r ls -> List.length ls = nlon / c.
Proof.
  intros C M N0 L (full & part & -> & F & [P1 P2] & ->).
  assert (K : List.length (concat full) = List.length full * c).
  { clear -F. induction F; cbn; [reflexivity|]. rewrite app_length. lia. }
  rewrite app_length, K in L. rewrite app_length. cbn [List.length].
  assert (List.length part = c).
  { destruct (Nat.eq_dec (List.length part) c); [assumption|]. exfalso.
    assert (X : nlon mod c = List.length part) by (symmetry; apply (Nat.mod_unique nlon c (List.length full)); lia). lia. }
  apply (Nat.div_unique nlon c _ 0); lia.
Qed.

Lemma exact_rows {A : Type} (zero : A) c step file nlon (r1 r2 s1 : list A) l1 m1 k1 (mm : list (list A)) n a b :
  1 < c -> nlon <> 0 -> nlon mod c = 0 ->
  List.length r1 = nlon -> List.length r2 = nlon -> List.length s1 = nlon ->
  row_lines c r1 l1 -> row_lines c r2 m1 -> row_lines c s1 k1 ->
  placed file step a (l1 ++ m1 ++ mm) -> placed file step b k1 ->
  read_rows zero c step file nlon (S n) a b = Err ValueError.
Proof.
  intros C N0 M L1 L2 L3 W1 W2 W3 PA PB. cbn [read_rows].
  assert (X : exists v m1', m1 = v :: m1' /\ List.length v = c).
  { destruct W2 as (full & part & -> & F & [P1 P2] & E). destruct full as [|v full].
    - exists part, []. split; [reflexivity|]. subst r2. cbn in L2.
      destruct (Nat.eq_dec (List.length part) c); [assumption|].
      rewrite <- L2 in M. rewrite Nat.mod_small in M by lia. lia.
    - exists v, (full ++ [part]). split; [reflexivity|]. now inversion F. }
  destruct X as (v & m1' & -> & LV).
  rewrite app_assoc in PA. apply placed_app in PA as [PA _].
  replace (l1 ++ v :: m1') with ((l1 ++ [v]) ++ m1') in PA by now rewrite <- app_assoc.
  apply placed_app in PA as [PA _].
  rewrite (exact_row zero c step file nlon a b r1 s1 l1 k1 v); auto; lia.
Qed.

Theorem C39_exact_width_refuted :
  forall (A : Type) (zero : A) nlat nlon amp ph file,
    sized nlat nlon amp -> sized nlat nlon ph -> 2 <= nlat -> nlon <> 0 ->
    (nlon mod 30 = 0 -> fes_file amp ph file -> read_fes zero file nlat nlon = Err ValueError).
Proof.
  intros A zero nlat nlon amp ph file [LA FA] [LP FP] N2 N0 M
    (h & la & lp & rest & H & [pra [WA ->]] & [prp [WP ->]] & ->).
  unfold read_fes. subst nlat.
  assert (L : List.length (concat prp) = List.length (concat pra)).
  { assert (K : forall f (per : list (list (list A))), Forall (fun r => List.length r = nlon) f ->
      Forall2 (row_lines 30) f per -> List.length (concat per) = List.length f * (nlon / 30)).
    { clear -M N0. intros f per F W. induction W as [|r ls f per Wr W IH]; [reflexivity|].
      inversion F; subst. cbn [concat List.length]. rewrite app_length, IH by assumption.
      rewrite (exact_count 30 _ r ls ltac:(lia) M N0 eq_refl Wr). lia. }
    rewrite (K ph prp FP WP), (K amp pra FA WA). now rewrite LP. }
  destruct (placed_alternate h rest (concat pra) (concat prp) 5 L H) as [P1 P2].
  destruct amp as [|r1 [|r2 amp]]; cbn in N2; try lia. destruct ph as [|s1 ph]; cbn in LP; try lia.
  inversion WA as [|? l1 ? pra1 W1 WA1]; subst. inversion WA1 as [|? l2 ? pra2 W2 WA2]; subst.
  inversion WP as [|? k1 ? prp1 V1 WP1]; subst.
  inversion FA as [|? ? Fa1 FA1]; subst. inversion FA1; subst. inversion FP; subst.
  cbn [concat] in P1, P2. apply placed_app in P2 as [P2 _].
  cbn [List.length concat]. apply (exact_rows zero 30 2 _ _ r1 r2 s1 l1 l2 k1 (concat pra2)); auto; lia.
Qed.
Print Assumptions C39_exact_width_refuted.

(** GOT: the phases are then looked for at the wrong place as well. *)
Section Got_exact.
  Context {A : Type}.
  Variable zero : A.
  Lemma full_lines_amp c step file fa : forall j l1 l2 pa pp n s,
    0 < c -> Forall (fun l => List.length l = c) fa -> List.length pa = j * c ->
    List.length fa * c <= n -> placed file step l1 fa ->
    full_lines c step file (List.length fa) j l1 l2 (pa ++ repeat zero n) pp = Ok s ->
    exists l2' p, s = (l1 + List.length fa * step, l2', (pa ++ concat fa) ++ repeat zero (n - List.length fa * c), p).
  Proof.
    induction fa as [|va fa IH]; intros j l1 l2 pa pp n s C FA La N P1 E.
    - cbn in E. apply Ok_inj in E as <-. cbn. rewrite Nat.add_0_r, app_nil_r, Nat.sub_0_r. eauto.
    - inversion FA as [|? ? Ca FA']; subst.
      apply placed_cons in P1 as [E1 P1]. cbn [List.length] in *.
      cbn [full_lines] in E. rewrite (numbers_at _ _ _ E1) in E. cbn [bind] in E.
      rewrite (set_slice_next zero pa va n (j * List.length va)) in E by lia. cbn [bind] in E.
      destruct (numbers file l2) as [pv|e]; [|discriminate E]. cbn [bind] in E.
      destruct (set_slice pp (j * List.length va) (List.length va) pv) as [p'|e]; [|discriminate E]. cbn [bind] in E.
      destruct (IH (S j) (l1 + step) (l2 + step) (pa ++ va) p' (n - List.length va) s) as (l2' & p & ->); auto.
      + rewrite app_length. lia.
      + lia.
      + exists l2', p. cbn [concat]. rewrite <- !app_assoc.
        replace (n - List.length va - List.length fa * List.length va) with
          (n - S (List.length fa) * List.length va) by lia.
        replace (l1 + step + List.length fa * step) with (l1 + S (List.length fa) * step) by lia.
        reflexivity.
  Qed.
End Got_exact.

Theorem C39_got_exact_width_refuted :
  forall (A : Type) (zero : A) nlat nlon amp ph file,
    sized nlat nlon amp -> sized nlat nlon ph -> 2 <= nlat -> nlon <> 0 ->
    nlon mod 11 = 0 -> got_file amp ph file ->
    forall r, read_got zero file nlat nlon <> Ok r.
Proof.
  intros A zero nlat nlon amp ph file [LA FA] [LP FP] N2 N0 M
    (h1 & h2 & la & lp & rest & H1 & H2 & [pra [WA ->]] & [prp [WP ->]] & ->) r E.
  pose proof (placed_block h1 (concat pra) (h2 ++ on_file (concat prp) ++ rest) 7 H1) as PA.
  set (file := h1 ++ on_file (concat pra) ++ h2 ++ on_file (concat prp) ++ rest) in *.
  unfold read_got in E. subst nlat.
  destruct amp as [|r1 [|r2 amp]]; cbn in N2; try lia.
  inversion WA as [|? l1 ? pra1 W1 WA1]; subst. inversion WA1 as [|? l2 ? pra2 W2 WA2]; subst.
  inversion FA as [|? ? Fa1 FA1]; subst. inversion FA1 as [|? ? Fa2 FA2]; subst. cbn [concat] in PA.
  pose proof (exact_count 11 _ r1 l1 ltac:(lia) M N0 eq_refl W1) as Q.
  assert (X : exists v l2', l2 = v :: l2' /\ List.length v = 11).
  { destruct W2 as (full & part & -> & F & [P1 P2] & E2). destruct full as [|v full].
    - exists part, []. split; [reflexivity|]. subst r2. cbn in Fa2.
      destruct (Nat.eq_dec (List.length part) 11); [assumption|].
      rewrite <- Fa2 in M. rewrite Nat.mod_small in M by lia. lia.
    - exists v, (full ++ [part]). split; [reflexivity|]. now inversion F. }
  destruct X as (v & l2' & -> & LV).
  destruct W1 as (fa & ta & -> & Fa & [Ta1 Ta2] & E1).
  assert (K : List.length (concat fa) = List.length fa * 11).
  { clear -Fa. induction Fa; cbn; [reflexivity|]. rewrite app_length. lia. }
  pose proof (Nat.div_mod (List.length r1) 11 ltac:(lia)) as DM.
  assert (LR : List.length r1 = List.length fa * 11 + List.length ta) by now rewrite E1, app_length, K.
  rewrite app_length in Q. cbn [List.length] in Q.
  assert (Ta : List.length ta = 11) by lia.
  apply placed_app in PA as [P1 P2]. cbn [app] in P2. apply placed_cons in P2 as [P2 _].
  cbn [List.length read_rows] in E. unfold read_row in E. rewrite <- Q in E.
  destruct (full_lines 11 1 file (List.length fa + 1) 0 7 _ _ _) as [s|e] eqn:FL; [|discriminate E]. cbn [bind] in E.
  replace (List.length fa + 1) with (List.length (fa ++ [ta])) in FL by now rewrite app_length.
  apply (full_lines_amp zero 11 1 file (fa ++ [ta]) 0 7 _ [] _ (List.length r1)) in FL.
  - destruct FL as (l2'' & p & ->). rewrite (Nat.add_comm (List.length fa) 1) in E. cbn beta iota in E. cbn [Nat.add] in E.
    change (S (S (S (S (S (S (S (List.length (fa ++ [ta]) * 1)))))))) with (7 + List.length (fa ++ [ta]) * 1) in E.
    rewrite (numbers_at _ _ _ P2) in E. cbn [bind] in E. rewrite M in E. unfold set_slice at 1 in E.
    cbn [Nat.min] in E. rewrite LV in E. destruct v as [|x [|y v]]; try discriminate LV. discriminate E.
  - lia.
  - apply Forall_app. split; [assumption|]. constructor; [assumption|constructor].
  - reflexivity.
  - rewrite app_length. cbn. lia.
  - assumption.
Qed.
Print Assumptions C39_got_exact_width_refuted.

(** A case of each: GOT with 11 columns, FES with 30. *)
Example C39_exact_case :
  let row := seq 0 11 in let h := repeat [None] 7 in
  got_file [row; row] [row; row] (h ++ on_file [row; row] ++ h ++ on_file [row; row] ++ []) /\
  read_got 0 (h ++ on_file [row; row] ++ h ++ on_file [row; row] ++ []) 2 11 = Err IndexError /\
  read_fes 0 (repeat [None] 5 ++ on_file (repeat (seq 0 30) 4)) 2 30 = Err ValueError.
Proof.
  cbv zeta. split; [|split; reflexivity].
  assert (W : row_lines 11 (seq 0 11) [seq 0 11]).
  { exists [], (seq 0 11). split; [reflexivity|]. split; [constructor|]. split; [cbn; lia|reflexivity]. }
  exists (repeat [None] 7), (repeat [None] 7), [seq 0 11; seq 0 11], [seq 0 11; seq 0 11], [].
  split; [reflexivity|]. split; [reflexivity|].
  split; [|split; [|reflexivity]]; (exists [[seq 0 11]; [seq 0 11]]; split; [repeat constructor; assumption|reflexivity]).
Qed.

(** A case for FES: one row of 31 columns. *)
Example C39_fes_case :
  let file := repeat [None] 5 ++ on_file [seq 0 30; seq 50 30; [30]; [80]] in
  fes_file [seq 0 31] [seq 50 31] (file ++ []) /\ read_fes 0 file 1 31 = Ok ([seq 0 31], [seq 50 31]).
Proof.
  cbv zeta. split; [|reflexivity].
  exists (repeat [None] 5), [seq 0 30; [30]], [seq 50 30; [80]], [].
  split; [reflexivity|]. split; [|split; [|reflexivity]].
  - exists [[seq 0 30; [30]]]. split; [|reflexivity]. constructor; [|constructor].
    exists [seq 0 30], [30]. split; [reflexivity|]. split; [repeat constructor|]. split; [cbn; lia|reflexivity].
  - exists [[seq 50 30; [80]]]. split; [|reflexivity]. constructor; [|constructor].
    exists [seq 50 30], [80]. split; [reflexivity|]. split; [repeat constructor|]. split; [cbn; lia|reflexivity].
Qed.
