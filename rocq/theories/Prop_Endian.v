(** C09: the endian codec. [le_enc n v] are the [n] radix-256 digits of [v],
    least significant first (Bytes.v). *)
From Coq Require Import ZArith List Bool.
Import ListNotations.
From Verif Require Import Outcome Bytes Endian_Model Endian_Proofs.
Local Open Scope Z_scope.

(** Round trip and frame, on any host and for either byte-order tag. *)
Theorem C09_roundtrip : forall native tag (sign : bool) n l i v,
  bytes_ok l -> (1 <= n)%nat -> 0 <= i -> i + Z.of_nat n <= Z.of_nat (length l) ->
  (if sign then in_signed (8 * Z.of_nat n) v else in_unsigned (8 * Z.of_nat n) v) ->
  exists l', endian_store native tag n l i v = Ok l' /\
             endian_load native tag sign n l' i = Ok v /\
             length l' = length l /\ bytes_ok l' /\
             (forall k, (k < Z.to_nat i \/ Z.to_nat i + n <= k)%nat -> nth_error l' k = nth_error l k).
Proof. exact endian_roundtrip. Qed.
Print Assumptions C09_roundtrip.

(** On a little-endian host the little-endian image is the digit string and the
    big-endian image its reversal. *)
Theorem C09_little_image : forall n l i v,
  (1 <= n)%nat -> 0 <= i -> i + Z.of_nat n <= Z.of_nat (length l) ->
  endian_store LittleE LittleE n l i v
  = Ok (firstn (Z.to_nat i) l ++ le_enc n v ++ skipn (Z.to_nat i + n) l).
Proof. exact store_le_ok. Qed.
Print Assumptions C09_little_image.

Theorem C09_big_image : forall n l i v,
  (1 <= n)%nat -> 0 <= i -> i + Z.of_nat n <= Z.of_nat (length l) ->
  endian_store LittleE BigE n l i v
  = Ok (firstn (Z.to_nat i) l ++ rev (le_enc n v) ++ skipn (Z.to_nat i + n) l).
Proof. exact store_be_ok. Qed.
Print Assumptions C09_big_image.

Theorem C09_little_load : forall (sign : bool) n l i,
  bytes_ok l -> (1 <= n)%nat -> 0 <= i -> i + Z.of_nat n <= Z.of_nat (length l) ->
  endian_load LittleE LittleE sign n l i
  = Ok (let u := le_dec (firstn n (skipn (Z.to_nat i) l)) in
        if sign then to_signed (8 * Z.of_nat n) u else u).
Proof. exact load_le_ok. Qed.
Print Assumptions C09_little_load.

(** Accesses that leave the buffer are undefined behaviour, never silent. *)
Theorem C09_load_out_of_bounds : forall sign w n l i,
  0 <= i -> Z.of_nat (length l) < i + Z.of_nat (S n) -> load_forward sign w n l i = UB UBOutOfBounds.
Proof. exact load_forward_oob. Qed.
Print Assumptions C09_load_out_of_bounds.

(** On a big-endian host the little-endian tag does not give the little-endian
    image (the byte loops work on values, so only the host-independent direction
    would be right): a point written there is not a LAS point record. *)
Theorem C09_big_endian_host_refuted :
  exists l v, endian_store BigE LittleE 2 l 0 v = Ok (rev (le_enc 2 v)) /\ rev (le_enc 2 v) <> le_enc 2 v.
Proof. exact big_host_witness. Qed.
Print Assumptions C09_big_endian_host_refuted.

Example C09_instance :
  endian_store LittleE LittleE 4 (repeat 255 6) 1 (-2) = Ok [255; 254; 255; 255; 255; 255] /\
  endian_load LittleE LittleE true 4 [255; 254; 255; 255; 255; 255] 1 = Ok (-2) /\
  in_signed 32 (-2).
Proof. vm_compute. repeat split; congruence. Qed.
