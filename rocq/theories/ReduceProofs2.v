(** What a grid file that can be read holds. *)
From Coq Require Import ZArith List Bool Lia.
From Verif Require Import PyBase OtisModel OtisProofs.
Import ListNotations.
Open Scope Z_scope.

Definition byte (b : Z) : Prop := 0 <= b < 256.
(** whatever a reader returns from bytes satisfies [Q] *)
Definition yields {A} (m : reader A) (Q : A -> Prop) : Prop := forall f p a q, Forall byte f -> m f p = Ok (a, q) -> Q a.
Lemma yields_bind {A B} (m : reader A) (k : A -> reader B) Q Q' : yields m Q -> (forall a, Q a -> yields (k a) Q') -> yields (rbind m k) Q'.
Proof.
  intros H K f p b q F E. unfold rbind in E. destruct (m f p) as [[a p']|] eqn:Em; [|discriminate E]. exact (K a (H f p a p' F Em) f p' b q F E).
Qed.
Lemma yields_ret {A} (a : A) (Q : A -> Prop) : Q a -> yields (rret a) Q.
Proof. intros H f p b q _ E. unfold rret in E. apply Ok_inj in E. now injection E as <- _. Qed.
Lemma yields_any {A} (m : reader A) : yields m (fun _ => True).
Proof. intros f p a q _ _. exact I. Qed.
Lemma yields_err {A} e (Q : A -> Prop) : yields (rerr e) Q.
Proof. intros f p a q _ E. discriminate E. Qed.
Lemma words_bytes n : forall b, Forall byte b -> Forall (fun w => Forall byte w /\ length w = 4%nat) (words n b).
Proof.
  induction n as [|n IH]; intros b F; [constructor|]. destruct b as [|a [|b [|c [|d t]]]]; try (constructor; fail).
  inversion F as [|? ? ? F1]; inversion F1 as [|? ? ? F2]; inversion F2 as [|? ? ? F3]; inversion F3; subst. cbn [words]. constructor; [|now apply IH].
  split; [repeat (apply Forall_cons; [assumption|]); apply Forall_nil|reflexivity].
Qed.
Lemma skipn_Forall {A} (P : A -> Prop) n l : Forall P l -> Forall P (skipn n l).
Proof. revert l. induction n as [|n IH]; intros l F; [exact F|]. destruct F; [constructor|]. now apply IH. Qed.
Lemma yields_f4s n : yields (f4s n) (Forall pattern).
Proof.
  intros f p l q F E. unfold f4s, fromfile in E. apply Ok_inj in E. injection E as <- _. apply Forall_map.
  eapply Forall_impl; [|apply (words_bytes (Z.to_nat n) (rest f p)); now apply skipn_Forall].
  intros w [Fw Lw]. unfold pattern. pose proof (un_be_bound w Fw) as H. rewrite Lw in H. exact H.
Qed.
Lemma signed32_int w : pattern w -> int32 (signed32 w).
Proof. unfold pattern, int32, signed32. intros H. destruct (w <? 2 ^ 31) eqn:E; [apply Z.ltb_lt in E|apply Z.ltb_ge in E]; lia. Qed.
Lemma yields_i4s n : yields (i4s n) (Forall int32).
Proof.
  unfold i4s. eapply yields_bind; [apply (yields_f4s n)|]. intros l F. apply yields_ret. apply Forall_map. eapply Forall_impl; [|exact F]. apply signed32_int.
Qed.
Lemma yields_f4 : yields f4 pattern.
Proof.
  unfold f4. eapply yields_bind; [apply yields_f4s|]. intros l F. destruct l as [|x [|]]; try apply yields_err. apply yields_ret. now inversion F.
Qed.
Lemma chunks_shape (P : Z -> Prop) n : forall m l, length l = (m * n)%nat -> Forall P l ->
  length (chunks n m l) = m /\ Forall (fun r => length r = n /\ Forall P r) (chunks n m l).
Proof.
  induction m as [|m IH]; intros l L F; cbn [chunks]; [split; [reflexivity|constructor]|].
  destruct (IH (skipn n l)) as [A B]; [rewrite skipn_length; lia|now apply skipn_Forall|]. split; [cbn [length]; now rewrite A|]. constructor; [|exact B].
  split; [rewrite firstn_length; lia|]. apply Forall_forall. intros x H. rewrite Forall_forall in F. apply F. rewrite <- (firstn_skipn n l). apply in_or_app. now left.
Qed.
Definition shaped (P : Z -> Prop) (ny nx : Z) (m : list (list Z)) : Prop :=
  0 <= ny /\ 0 <= nx /\ Z.of_nat (length m) = ny /\ Forall (fun r => Z.of_nat (length r) = nx /\ Forall P r) m.
Lemma reshape_shaped P ny nx l m : Forall P l -> reshape ny nx l = Ok m -> shaped P ny nx m.
Proof.
  intros F E. unfold reshape in E. destruct (0 <=? ny) eqn:E1; [|discriminate E]. destruct (0 <=? nx) eqn:E2; [|discriminate E].
  destruct (_ =? _) eqn:E3; [|discriminate E]. cbn [andb] in E. apply Ok_inj in E as <-. apply Z.leb_le in E1, E2. apply Z.eqb_eq in E3.
  destruct (chunks_shape P (Z.to_nat nx) (Z.to_nat ny) l) as [A B]; [rewrite <- (Nat2Z.id (length l)), E3, Z2Nat.inj_mul by lia; reflexivity|exact F|].
  repeat split; try lia. eapply Forall_impl; [|exact B]. intros r [Lr Fr]. split; [lia|exact Fr].
Qed.
Lemma yields_lift {A} (r : res A) (Q : A -> Prop) : (forall a, r = Ok a -> Q a) -> yields (rlift r) Q.
Proof. intros H f p a q _ E. unfold rlift in E. destruct r as [x|]; [|discriminate E]. apply Ok_inj in E. injection E as <- _. auto. Qed.
Definition boundary (iob : list (list Z)) : Prop := Forall (fun r => exists a b, r = [a; b] /\ int32 a /\ int32 b) iob.
Lemma yields_iob : yields read_iob boundary.
Proof.
  unfold read_iob. eapply yields_bind; [apply yields_any|]. intros nob _. destruct (nob =? 0).
  - eapply yields_bind; [apply yields_any|]. intros _ _. apply yields_ret. constructor.
  - eapply yields_bind; [apply yields_any|]. intros _ _. eapply yields_bind; [apply yields_i4s|]. intros l F.
    eapply yields_bind; [apply (yields_lift _ (shaped int32 nob 2)); intros m; now apply reshape_shaped|]. intros m (_ & _ & _ & S).
    eapply yields_bind; [apply yields_any|]. intros _ _. apply yields_ret. unfold boundary. eapply Forall_impl; [|exact S].
    intros r [Lr Fr]. destruct r as [|a [|b [|c r]]]; cbn [length] in Lr; try lia. exists a, b. inversion Fr as [|? ? ? Fr']; inversion Fr'; subst. auto.
Qed.
Record sound (g : otis_grid) : Prop := Sound {
  so_hz : shaped pattern (g_ny g) (g_nx g) (g_hz g);
  so_mz : shaped int32 (g_ny g) (g_nx g) (g_mz g);
  so_dt : pattern (g_dt g);
  so_iob : boundary (g_iob g) }.
Lemma read_sound file g : Forall byte file -> run read_otis_grid file = Ok g -> sound g.
Proof.
  intros F E. unfold run in E. destruct (read_otis_grid file 0) as [[g' q]|] eqn:Er; [|discriminate E]. apply Ok_inj in E as <-.
  revert Er. apply (fun H : yields read_otis_grid sound => H file 0 g' q F). clear.
  unfold read_otis_grid, read_plane.
  do 5 (eapply yields_bind; [apply yields_any|]; intros ? _). eapply yields_bind; [apply yields_f4|]. intros dt D.
  eapply yields_bind; [apply yields_iob|]. intros iob B.
  eapply yields_bind; [|]. { eapply yields_bind; [apply yields_f4s|]. intros l Fl. apply (yields_lift _ (shaped pattern a1 a0)). intros m. now apply reshape_shaped. }
  intros hz H. eapply yields_bind; [apply yields_any|]. intros _ _.
  eapply yields_bind; [|]. { eapply yields_bind; [apply yields_i4s|]. intros l Fl. apply (yields_lift _ (shaped int32 a1 a0)). intros m. now apply reshape_shaped. }
  intros mz M. apply yields_ret. now constructor.
Qed.
