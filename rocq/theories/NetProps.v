(** C98: listings keep every name with its time, files are those of the host,
    and times are seconds since 1970. *)
From Coq Require Import String Ascii List ZArith Bool Lia Permutation NArith.
From Verif Require Import PyBase StrBase NetModel NetSpec.
Import ListNotations.
Open Scope string_scope.

(** * the order *)
Lemma leb_no_later a b : String.leb a b = true -> no_later a b.
Proof.
  unfold String.leb. revert b. induction a as [|c a IH]; intros b; [constructor|].
  destruct b as [|d b]; cbn; [discriminate|].
  destruct (Ascii.compare c d) eqn:E.
  - apply Ascii.compare_eq_iff in E. subst. intros H. apply nl_same, IH, H.
  - intros _. apply nl_lower. unfold Ascii.compare in E. rewrite N.compare_lt_iff in E.
    unfold nat_of_ascii. lia.
  - discriminate.
Qed.

Lemma no_later_trans a b c : no_later a b -> no_later b c -> no_later a c.
Proof.
  intros H. revert c. induction H; intros z Hz; [constructor| |]; inversion Hz; subst.
  - apply nl_lower. lia.
  - apply nl_lower. lia.
  - now apply nl_lower.
  - apply nl_same. auto.
Qed.

(** * listings *)
Section SORT.
Variable M : Type.
Fixpoint pinsert (x : string * M) (l : list (string * M)) : list (string * M) :=
  match l with
  | [] => [x]
  | y :: l' => if String.leb (fst x) (fst y) then x :: y :: l' else y :: pinsert x l'
  end.
Fixpoint psort (l : list (string * M)) : list (string * M) :=
  match l with [] => [] | x :: l => pinsert x (psort l) end.

Lemma pinsert_perm x l : Permutation (x :: l) (pinsert x l).
Proof.
  induction l as [|y l IH]; cbn; [reflexivity|].
  destruct (String.leb _ _); [reflexivity|]. rewrite perm_swap. now constructor.
Qed.
Lemma psort_perm l : Permutation l (psort l).
Proof. induction l as [|x l IH]; cbn; [reflexivity|]. rewrite <- pinsert_perm. now constructor. Qed.

Lemma pinsert_order x l : in_order l -> in_order (pinsert x l).
Proof.
  induction l as [|y l IH]; intros H; [cbn; split; [intros y []|auto]|].
  destruct H as (Hy & Hl). cbn [pinsert]. destruct (String.leb (fst x) (fst y)) eqn:E.
  - apply leb_no_later in E. cbn. split.
    + intros z [<-|Hz]; [exact E|]. eapply no_later_trans; [exact E|auto].
    + auto.
  - cbn [in_order]. split; [|auto]. intros z Hz.
    apply (Permutation_in z (Permutation_sym (pinsert_perm x l))) in Hz.
    destruct Hz as [<-|Hz]; [|auto].
    apply leb_no_later. destruct (String.leb_total (fst x) (fst y)); congruence.
Qed.
Lemma psort_order l : in_order (psort l).
Proof. induction l as [|x l IH]; cbn; [exact I|]. now apply pinsert_order. Qed.

Lemma pinsert_name n x l : of_name n (pinsert x l) = of_name n (x :: l).
Proof.
  induction l as [|y l IH]; [reflexivity|]. cbn [pinsert].
  destruct (String.leb (fst x) (fst y)) eqn:E; [reflexivity|].
  unfold of_name in *. cbn [filter] in *. rewrite IH.
  destruct (string_dec (fst x) n) as [Hx|Hx]; [|reflexivity].
  destruct (string_dec (fst y) n) as [Hy|Hy]; [|reflexivity].
  exfalso. rewrite Hx, Hy in E. destruct (String.leb_total n n); congruence.
Qed.
Lemma psort_name n l : of_name n (psort l) = of_name n l.
Proof.
  induction l as [|x l IH]; [reflexivity|]. cbn [psort]. rewrite pinsert_name.
  unfold of_name in *. cbn [filter]. now rewrite IH.
Qed.

(** indices and the rows they stand for *)
Definition row (L : list (string * M)) (x : nat * string) (p : string * M) : Prop :=
  nth_error L (fst x) = Some p /\ snd x = fst p.

Lemma row_insert L x p X P : row L x p -> Forall2 (row L) X P ->
  Forall2 (row L) (insert x X) (pinsert p P).
Proof.
  intros Hx. induction 1 as [|y q X P Hy HXP IH]; cbn; [auto|].
  rewrite (proj2 Hx), (proj2 Hy). destruct (String.leb (fst p) (fst q)); auto.
Qed.
Lemma row_sorted L X P : Forall2 (row L) X P -> Forall2 (row L) (sorted X) (psort P).
Proof. induction 1; cbn; [constructor|]. now apply row_insert. Qed.

Lemma row_enumerate pre L :
  Forall2 (row (pre ++ L)) (enumerate (length pre) (map fst L)) L.
Proof.
  revert pre. induction L as [|p L IH]; intros pre; cbn; constructor.
  - split; [|reflexivity]. cbn. rewrite nth_error_app2, Nat.sub_diag by lia. reflexivity.
  - specialize (IH (pre ++ [p])%list). rewrite <- app_assoc in IH.
    rewrite app_length, Nat.add_1_r in IH. exact IH.
Qed.

Lemma row_filter L X P search : Forall2 (row L) X P ->
  Forall2 (row L) (filter (fun x => search (snd x)) X) (filter (fun x => search (fst x)) P).
Proof.
  induction 1 as [|x p X P Hx H IH]; cbn; [constructor|].
  rewrite (proj2 Hx). destruct (search (fst p)); auto.
Qed.

Lemma mapM_item {A} (g : string * M -> A) L X P : Forall2 (row L) X P ->
  mapM (item (map g L)) (map fst X) = Ok (map g P).
Proof.
  induction 1 as [|x p X P (Hx & _) H IH]; [reflexivity|]. cbn [map mapM].
  unfold item at 1. rewrite nth_error_map, Hx. cbn. rewrite IH. reflexivity.
Qed.
End SORT.

Theorem C98_listing (M : Type) (pattern : option (string -> bool)) (sort : bool)
  (rows : list (string * M)) :
  exists out, listed pattern sort (map fst rows) (map snd rows) = Ok (map fst out, map snd out) /\
    (sort = false -> out = chosen pattern rows) /\
    (sort = true -> Permutation (chosen pattern rows) out /\ in_order out /\
       forall n, of_name n out = of_name n (chosen pattern rows)).
Proof.
  assert (E : listed pattern sort (map fst rows) (map snd rows) =
    (let nt := (map fst (chosen pattern rows), map snd (chosen pattern rows)) in
     if sort then
       let i := map fst (sorted (enumerate 0 (fst nt))) in
       do n <- mapM (item (fst nt)) i ;; do t <- mapM (item (snd nt)) i ;; Ok (n, t)
     else Ok nt)).
  { unfold listed, chosen. destruct pattern as [search|]; [|reflexivity]. cbv zeta.
    pose proof (row_filter M rows _ _ search (row_enumerate M [] rows)) as F. cbn [length app] in F.
    rewrite (mapM_item M fst rows _ _ F). cbn [bind]. rewrite (mapM_item M snd rows _ _ F). reflexivity. }
  rewrite E. cbv zeta. cbn [fst snd].
  destruct sort.
  - set (L := chosen pattern rows).
    pose proof (row_sorted M L _ _ (row_enumerate M [] L)) as F. cbn [length app] in F.
    exists (psort M L). cbv zeta.
    rewrite (mapM_item M fst L _ _ F). cbn [bind]. rewrite (mapM_item M snd L _ _ F).
    split; [reflexivity|]. split; [discriminate|]. intros _.
    split; [apply psort_perm|]. split; [apply psort_order|]. intros n. apply psort_name.
  - exists (chosen pattern rows). split; [reflexivity|]. split; [reflexivity|discriminate].
Qed.
