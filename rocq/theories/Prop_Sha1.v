(** C68: the SHA-1 digest.  Sha1_Spec gives SHA-1 as FIPS 180-4 defines it. *)
From Coq Require Import ZArith List Bool Lia.
Import ListNotations.
From Verif Require Import Outcome Bytes Sha1_Model Sha1_Spec Sha1_Proofs.
Local Open Scope Z_scope.
Local Notation length := List.length (only parsing).

(** A program makes a hasher (whose buffer starts with arbitrary bytes), feeds it any
    chunks, and asks for the digest. *)
Definition hash_chunks (junk : list Z) (chunks : list (list Z)) : outcome (list Z * sha1) :=
  let! s := add_all (sha1_new junk) chunks in get_digest s.

(** However a message of fewer than 2^32 bytes is cut into chunks, the digest is its SHA-1. *)
Theorem C68_digest : forall junk chunks,
  length junk = 64%nat -> Forall bytes_ok chunks -> Z.of_nat (length (List.concat chunks)) < 2 ^ 32 ->
  exists s, hash_chunks junk chunks = Ok (SHA1_of (List.concat chunks), s).
Proof.
  intros junk chunks J OK L. unfold hash_chunks.
  destruct (add_all_ok chunks _ [] (rep_new junk J) (Forall_nil _) OK) as (s & E & R & O).
  rewrite E. cbn [obind]. cbn [app] in R, O.
  destruct (get_digest_ok s _ R O) as (s' & E' & _). rewrite Z.mod_small in E' by lia.
  exists s'. exact E'.
Qed.

(** Of any message: the length that goes into the digest is counted modulo 2^32. *)
Theorem C68_any_length : forall junk chunks,
  length junk = 64%nat -> Forall bytes_ok chunks ->
  exists s, hash_chunks junk chunks =
    Ok (digest_of (hash_blocks (padded_with (8 * (Z.of_nat (length (List.concat chunks)) mod 2 ^ 32)) (List.concat chunks))), s).
Proof.
  intros junk chunks J OK. unfold hash_chunks.
  destruct (add_all_ok chunks _ [] (rep_new junk J) (Forall_nil _) OK) as (s & E & R & O).
  rewrite E. cbn [obind]. cbn [app] in R, O.
  destruct (get_digest_ok s _ R O) as (s' & E' & _). exists s'. exact E'.
Qed.

(** Asking is not reading: the padding goes into the hasher, and the next digest is
    that of the padded message. *)
Theorem C68_asked_again : forall junk chunks more,
  length junk = 64%nat -> Forall bytes_ok chunks -> Forall bytes_ok more ->
  Z.of_nat (length (padded (List.concat chunks) ++ List.concat more)) < 2 ^ 32 ->
  exists d s s' s'', hash_chunks junk chunks = Ok (d, s) /\ add_all s more = Ok s' /\
    get_digest s' = Ok (SHA1_of (padded (List.concat chunks) ++ List.concat more), s'').
Proof.
  intros junk chunks more J OK OKm L. unfold hash_chunks.
  destruct (add_all_ok chunks _ [] (rep_new junk J) (Forall_nil _) OK) as (s & E & R & O).
  rewrite E. cbn [obind]. cbn [app] in R, O.
  destruct (get_digest_ok s _ R O) as (s' & E' & R').
  assert (LL : Z.of_nat (length (List.concat chunks)) < 2 ^ 32).
  { rewrite app_length in L. unfold padded, padded_with in L. rewrite !app_length in L. lia. }
  rewrite Z.mod_small in E', R' by lia. fold (padded (List.concat chunks)) in E', R'.
  destruct (add_all_ok more s' _ R') as (s1 & E1 & R1 & O1).
  { unfold padded, padded_with. apply Forall_app. split; [exact O|]. apply Forall_app. split; [constructor; [unfold is_byte; lia|constructor]|].
    apply Forall_app. split; [apply repeat0_ok|apply be_bytes_ok]. }
  { exact OKm. }
  destruct (get_digest_ok s1 _ R1 O1) as (s2 & E2 & _). rewrite Z.mod_small in E2 by lia.
  do 4 eexists. split; [exact E'|]. split; [exact E1|]. exact E2.
Qed.

(** So a second getDigest does not give the digest again. *)
Definition abc : list Z := [97; 98; 99].
Definition again (junk : list Z) (chunks : list (list Z)) : outcome (list Z * list Z) :=
  let! (d, s) := hash_chunks junk chunks in let! (d', s) := get_digest s in Ok (d, d').
Theorem C68_asked_again_refuted :
  ~ (forall junk chunks, length junk = 64%nat -> Forall bytes_ok chunks -> exists d, again junk chunks = Ok (d, d)).
Proof.
  intros H. destruct (H (repeat 0 64) [abc] eq_refl) as (d & E).
  { constructor; [|constructor]. unfold abc. repeat (constructor; [unfold is_byte; lia|]). constructor. }
  apply (f_equal (fun o => match o with Ok (a, b) => nth 0 a 0 - nth 0 b 0 | _ => 1 end)) in E.
  cbv beta iota in E. rewrite Z.sub_diag in E. vm_compute in E. discriminate E.
Qed.

(** The digest the standard gives for "abc"; two cuttings of a message of two blocks. *)
Example C68_digest_instance :
  length (repeat 7 64) = 64%nat /\ Forall bytes_ok [abc] /\ Z.of_nat (length (List.concat [abc])) < 2 ^ 32 /\
  (let! (d, _) := hash_chunks (repeat 7 64) [abc] in Ok d) =
  Ok [0xa9; 0x99; 0x3e; 0x36; 0x47; 0x06; 0x81; 0x6a; 0xba; 0x3e; 0x25; 0x71; 0x78; 0x50; 0xc2; 0x6c; 0x9c; 0xd0; 0xd8; 0x9d].
Proof.
  split; [reflexivity|]. split.
  - constructor; [|constructor]. unfold abc. repeat (constructor; [unfold is_byte; lia|]). constructor.
  - split; [reflexivity|]. vm_compute. reflexivity.
Qed.
Example C68_spec_instance : SHA1_of [] =
  [0xda; 0x39; 0xa3; 0xee; 0x5e; 0x6b; 0x4b; 0x0d; 0x32; 0x55; 0xbf; 0xef; 0x95; 0x60; 0x18; 0x90; 0xaf; 0xd8; 0x07; 0x09].
Proof.
  destruct (C68_digest (repeat 0 64) [] eq_refl (Forall_nil _) eq_refl) as (s & E).
  apply (f_equal (fun o => match o with Ok (d, _) => d | _ => [] end)) in E. cbn [List.concat] in E. rewrite <- E. vm_compute. reflexivity.
Qed.
