(** ASCII string helpers shared by several models.  Python strings are
    modelled as Coq [string]s of ASCII characters; case conversion is the ASCII
    part of str.lower / str.upper (simplification: no non-ASCII characters). *)
From Coq Require Import String Ascii List Arith Lia Bool.
Import ListNotations.

Definition is_upper (c : ascii) : bool := ((65 <=? nat_of_ascii c) && (nat_of_ascii c <=? 90))%nat.
Definition is_lower (c : ascii) : bool := ((97 <=? nat_of_ascii c) && (nat_of_ascii c <=? 122))%nat.
Definition lower_ascii (c : ascii) : ascii :=
  if is_upper c then ascii_of_nat (nat_of_ascii c + 32) else c.
Definition upper_ascii (c : ascii) : ascii :=
  if is_lower c then ascii_of_nat (nat_of_ascii c - 32) else c.

Fixpoint smap (f : ascii -> ascii) (s : string) : string :=
  match s with EmptyString => EmptyString | String c s' => String (f c) (smap f s') end.
Definition lower : string -> string := smap lower_ascii.
Definition upper : string -> string := smap upper_ascii.

Definition mem_str (s : string) (l : list string) : bool := existsb (String.eqb s) l.

Lemma mem_str_In s l : mem_str s l = true <-> In s l.
Proof.
  unfold mem_str. rewrite existsb_exists. split.
  - intros (x & Hx & E). apply String.eqb_eq in E. now subst.
  - intros H. exists s. split; auto. apply String.eqb_refl.
Qed.

Lemma mem_str_false s l : mem_str s l = false <-> ~ In s l.
Proof. rewrite <- mem_str_In. destruct (mem_str s l); split; congruence. Qed.

Lemma lower_ascii_idem c : lower_ascii (lower_ascii c) = lower_ascii c.
Proof. destruct c as [[] [] [] [] [] [] [] []]; reflexivity. Qed.
Lemma lower_upper_ascii c : lower_ascii (upper_ascii c) = lower_ascii c.
Proof. destruct c as [[] [] [] [] [] [] [] []]; reflexivity. Qed.
Lemma lower_idem s : lower (lower s) = lower s.
Proof. unfold lower. induction s as [|c s IH]; cbn; auto. now rewrite lower_ascii_idem, IH. Qed.
Lemma lower_upper s : lower (upper s) = lower s.
Proof. unfold lower, upper. induction s as [|c s IH]; cbn; auto. now rewrite lower_upper_ascii, IH. Qed.

(** Deciding NoDup by computation. *)
Fixpoint nodupb (l : list string) : bool :=
  match l with [] => true | x :: l' => negb (mem_str x l') && nodupb l' end.
Lemma nodupb_NoDup l : nodupb l = true -> NoDup l.
Proof.
  induction l as [|x l IH]; cbn; intros H; constructor;
    apply andb_true_iff in H; destruct H as [H1 H2]; auto.
  apply negb_true_iff in H1. now apply mem_str_false.
Qed.
Lemma not_in_compute s l : mem_str s l = false -> ~ In s l.
Proof. apply mem_str_false. Qed.
Lemma in_compute s l : mem_str s l = true -> In s l.
Proof. apply mem_str_In. Qed.
