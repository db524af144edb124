(** Fixed-size character arrays and C strings, as byte lists. *)
From Coq Require Import ZArith List Lia Bool Ascii String.
Import ListNotations.
From Verif Require Import Outcome Bytes.
Local Open Scope Z_scope.

(** The bytes of a string literal. *)
Fixpoint str (s : string) : list Z :=
  match s with
  | EmptyString => []
  | String a r => Z.of_nat (nat_of_ascii a) :: str r
  end.

(** The characters before the first NUL: what [std::string(s.c_str())] keeps. *)
Fixpoint until_nul (l : list Z) : list Z :=
  match l with
  | [] => []
  | b :: r => if b =? 0 then [] else b :: until_nul r
  end.

(** Right-padding with NULs to length [n] ([std::string::resize(n, 0)] when
    shorter; [std::fill] then [std::copy] into an array of size [n]). *)
Definition pad_to (n : nat) (l : list Z) : list Z := l ++ repeat 0 (n - List.length l).

(** [strncpy(dst, src.c_str(), n)]: copies up to the first NUL, at most [n]
    characters, and fills the rest of the [n] bytes with NUL. *)
Definition strncpy (n : nat) (src : list Z) : list Z :=
  pad_to n (firstn n (until_nul src)).

(** No embedded NUL. *)
Definition no_nul (l : list Z) : Prop := ~ In 0 l.

Fixpoint zlist_eqb (a b : list Z) : bool :=
  match a, b with
  | [], [] => true
  | x :: a', y :: b' => (x =? y) && zlist_eqb a' b'
  | _, _ => false
  end.

Lemma zlist_eqb_spec a b : zlist_eqb a b = true <-> a = b.
Proof.
  revert b. induction a as [|x a IH]; intros [|y b]; cbn; try (split; congruence).
  rewrite andb_true_iff, Z.eqb_eq, IH. split; [intros [-> ->]; reflexivity|intros E; inversion E; auto].
Qed.

Lemma until_nul_no_nul l : no_nul (until_nul l).
Proof.
  unfold no_nul. induction l as [|b l IH]; cbn [until_nul]; [intros []|].
  destruct (Z.eqb_spec b 0) as [E|E]; cbn [In]; [intros []|]. intros [H|H]; auto.
Qed.

Lemma until_nul_id l : no_nul l -> until_nul l = l.
Proof.
  unfold no_nul. induction l as [|b l IH]; cbn [until_nul In]; intros H; [reflexivity|].
  destruct (Z.eqb_spec b 0) as [E|E]; [tauto|]. rewrite IH; tauto.
Qed.

Lemma until_nul_app_nul l r : no_nul l -> until_nul (l ++ 0 :: r) = l.
Proof.
  unfold no_nul. induction l as [|b l IH]; cbn [until_nul In app]; intros H; [reflexivity|].
  destruct (Z.eqb_spec b 0) as [E|E]; [tauto|]. rewrite IH; tauto.
Qed.

Lemma until_nul_repeat0 k : until_nul (repeat 0 k) = [].
Proof. destruct k; reflexivity. Qed.

Lemma until_nul_app_zeros l k : until_nul (l ++ repeat 0 k) = until_nul l.
Proof.
  induction l as [|b l IH]; cbn [app until_nul]; [apply until_nul_repeat0|].
  destruct (b =? 0); [reflexivity|]. now rewrite IH.
Qed.

Lemma until_nul_pad n l : until_nul (pad_to n l) = until_nul l.
Proof. apply until_nul_app_zeros. Qed.

Lemma until_nul_length l : (List.length (until_nul l) <= List.length l)%nat.
Proof. induction l as [|b l IH]; cbn [until_nul List.length]; [lia|]. destruct (b =? 0); cbn [List.length]; lia. Qed.

Lemma pad_to_length n l : (List.length l <= n)%nat -> List.length (pad_to n l) = n.
Proof. intros H. unfold pad_to. rewrite app_length, repeat_length. lia. Qed.

Lemma strncpy_length n src : List.length (strncpy n src) = n.
Proof. unfold strncpy. apply pad_to_length. rewrite firstn_length. lia. Qed.

Lemma until_nul_firstn n l : until_nul (firstn n (until_nul l)) = firstn n (until_nul l).
Proof.
  apply until_nul_id. intros H. apply (until_nul_no_nul l).
  rewrite <- (firstn_skipn n (until_nul l)). apply in_or_app. now left.
Qed.

Lemma until_nul_strncpy n src : until_nul (strncpy n src) = firstn n (until_nul src).
Proof. unfold strncpy. rewrite until_nul_pad. apply until_nul_firstn. Qed.

Lemma strncpy_short n src : (List.length src <= n)%nat -> until_nul (strncpy n src) = until_nul src.
Proof.
  intros H. rewrite until_nul_strncpy. apply firstn_all2.
  pose proof (until_nul_length src). lia.
Qed.

(** A NUL-padded array is determined by its C string. *)
Definition nul_padded (l : list Z) : Prop := l = pad_to (List.length l) (until_nul l).

Lemma strncpy_padded n src : nul_padded (strncpy n src).
Proof.
  unfold nul_padded. rewrite strncpy_length, until_nul_strncpy. reflexivity.
Qed.

Lemma bytes_pad n l : bytes_ok l -> bytes_ok (pad_to n l).
Proof.
  intros H. unfold bytes_ok, pad_to in *. apply Forall_app. split; [exact H|].
  apply Forall_forall. intros x Hx. apply repeat_spec in Hx. subst. unfold is_byte; lia.
Qed.

Lemma bytes_until_nul l : bytes_ok l -> bytes_ok (until_nul l).
Proof.
  unfold bytes_ok. induction 1 as [|b l Hb Hl IH]; cbn [until_nul]; [constructor|].
  destruct (b =? 0); constructor; auto.
Qed.

Lemma bytes_firstn n l : bytes_ok l -> bytes_ok (firstn n l).
Proof. unfold bytes_ok. intros H. rewrite <- (firstn_skipn n l) in H. apply Forall_app in H. tauto. Qed.
Lemma bytes_skipn n l : bytes_ok l -> bytes_ok (skipn n l).
Proof. unfold bytes_ok. intros H. rewrite <- (firstn_skipn n l) in H. apply Forall_app in H. tauto. Qed.
Lemma bytes_strncpy n l : bytes_ok l -> bytes_ok (strncpy n l).
Proof. intros H. apply bytes_pad, bytes_firstn, bytes_until_nul, H. Qed.
Lemma bytes_app a b : bytes_ok a -> bytes_ok b -> bytes_ok (a ++ b).
Proof. unfold bytes_ok. intros. apply Forall_app. auto. Qed.
