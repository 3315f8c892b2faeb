(** * Properties C01-C07 *)
From Coq Require Import ZArith List.
From Verif Require Import Base ByteConv Util SpecCodec CodecProofs.
Import ListNotations.
Open Scope Z_scope.

(** C01: decoding the encoding of any integer returns it. *)
Theorem C01_byte_codec_roundtrip : forall x : Z, FromByteArray (ToByteArray x) = Ok x.
Proof. exact byte_codec_roundtrip. Qed.
Print Assumptions C01_byte_codec_roundtrip.

(** C01, C03: what is returned is a byte string representing the integer. *)
Theorem C01_ToByteArray_represents : forall x : Z, represents (ToByteArray x) x.
Proof. exact ToByteArray_represents. Qed.
Print Assumptions C01_ToByteArray_represents.

(** C02: FromByteArray is the two's-complement value, and fails only on []. *)
Theorem C02_FromByteArray_twos_complement : forall l : list Z, Forall byte l ->
  FromByteArray l = match l with [] => Err | _ => Ok (twos_value l) end.
Proof. exact FromByteArray_spec. Qed.
Print Assumptions C02_FromByteArray_twos_complement.
Example C02_nonvacuous : Forall byte [255; 128] /\ FromByteArray [255; 128] = Ok (-128).
Proof. split; [repeat constructor; discriminate|reflexivity]. Qed.

(** C03: the encoding is the shortest one except for x = -2^(8k+7). *)
Theorem C03_ToByteArray_minimal_iff : forall x : Z,
  shortest (ToByteArray x) x <-> ~ exists k : nat, x = - 2 ^ (8 * Z.of_nat k + 7).
Proof. exact minimal_iff. Qed.
Print Assumptions C03_ToByteArray_minimal_iff.

(** C03: the documented claim "minimum number of bytes" is false for every
    x = -2^(8k+7): k+2 bytes are returned although k+1 bytes suffice. *)
Theorem C03_ToByteArray_minimal_refuted : forall k : nat,
  length (ToByteArray (- 2 ^ (8 * Z.of_nat k + 7))) = S (S k) /\
  represents (128 :: repeat 0 k) (- 2 ^ (8 * Z.of_nat k + 7)) /\
  length (128 :: repeat 0 k) = S k.
Proof. exact superfluous_byte. Qed.
Print Assumptions C03_ToByteArray_minimal_refuted.
Example C03_witness : ToByteArray (-128) = [255; 128] /\ ToByteArray (-129) = [255; 127].
Proof. split; reflexivity. Qed.

(** C04: which fields are accepted, and with which value. *)
Theorem C04_ConvertToBigInt_rejects_iff : forall l : list Z,
  ConvertToBigInt l = Err <-> ~ field_ok l.
Proof. exact Convert_err. Qed.
Print Assumptions C04_ConvertToBigInt_rejects_iff.

Theorem C04_ConvertToBigInt_digits : forall l : list Z, ascii_digits l ->
  ConvertToBigInt l = Ok (dec_value l).
Proof. exact Convert_digits. Qed.
Print Assumptions C04_ConvertToBigInt_digits.

Theorem C04_ConvertToBigInt_minus : forall l : list Z, ascii_digits l ->
  ConvertToBigInt (45 :: l) = Ok (- dec_value l).
Proof. exact Convert_minus. Qed.
Print Assumptions C04_ConvertToBigInt_minus.
Example C04_nonvacuous :
  ascii_digits [52; 50] /\ ConvertToBigInt [45; 52; 50] = Ok (-42)
  /\ ConvertToBigInt [] = Ok 0 /\ ConvertToBigInt [45] = Ok 0
  /\ ConvertToBigInt [52; 45] = Err /\ ConvertToBigInt [43; 52] = Err.
Proof. repeat split; repeat constructor; discriminate. Qed.

(** C04: every input is a comma-separated list of comma-free fields … *)
Theorem C04_every_input_is_a_list_of_fields : forall l : list Z,
  exists fs, fs <> [] /\ Forall (fun f => ~ In 44 f) fs /\ join fs = l.
Proof. exact join_split. Qed.
Print Assumptions C04_every_input_is_a_list_of_fields.

(** … ParseInput decodes the fields one by one … *)
Theorem C04_ParseInput_fields : forall fs : list (list Z),
  fs <> [] -> Forall (fun f => ~ In 44 f) fs ->
  ParseInput (join fs) = convert_all fs.
Proof. exact ParseInput_join. Qed.
Print Assumptions C04_ParseInput_fields.

(** … fails iff one of them is malformed … *)
Theorem C04_ParseInput_rejects_iff : forall fs : list (list Z),
  fs <> [] -> Forall (fun f => ~ In 44 f) fs ->
  (ParseInput (join fs) = Err <-> Exists (fun f => ~ field_ok f) fs).
Proof. exact ParseInput_err. Qed.
Print Assumptions C04_ParseInput_rejects_iff.

(** … and reads back what printing and joining produces. *)
Theorem C04_ParseInput_roundtrip : forall xs : list Z,
  xs <> [] -> ParseInput (join (map big_String xs)) = Ok xs.
Proof. exact ParseInput_roundtrip. Qed.
Print Assumptions C04_ParseInput_roundtrip.
Example C04_roundtrip_example :
  join (map big_String [-10; 0; 257]) = [45; 49; 48; 44; 48; 44; 50; 53; 55].
Proof. reflexivity. Qed.

(** C05 *)
Theorem C05_Decompose_length : forall x u (l : nat), length (Decompose x u l) = l.
Proof. exact Decompose_length. Qed.
Print Assumptions C05_Decompose_length.

Theorem C05_Decompose_digits : forall x u (l : nat), 0 < u ->
  Forall (fun d => 0 <= d < u) (Decompose x u l).
Proof. exact Decompose_digits. Qed.
Print Assumptions C05_Decompose_digits.

Theorem C05_Decompose_value : forall x u (l : nat), 0 < u ->
  le_value u (Decompose x u l) = x mod u ^ Z.of_nat l.
Proof. exact Decompose_value. Qed.
Print Assumptions C05_Decompose_value.

Theorem C05_Decompose_exact_iff : forall x u (l : nat), 0 < u ->
  (le_value u (Decompose x u l) = x <-> 0 <= x < u ^ Z.of_nat l).
Proof. exact Decompose_exact. Qed.
Print Assumptions C05_Decompose_exact_iff.
Example C05_nonvacuous : Decompose 925 57 3 = [13; 16; 0] /\ Decompose (-1) 2 4 = [1; 1; 1; 1].
Proof. split; reflexivity. Qed.

(** C06 *)
Theorem C06_ModPow_nonneg : forall b e m, 1 <= m -> 0 <= e ->
  ModPow b e m = Some (b ^ e mod m).
Proof. exact ModPow_nonneg. Qed.
Print Assumptions C06_ModPow_nonneg.

Theorem C06_ModPow_negative : forall b e m, 1 < m -> e < 0 -> Z.gcd b m = 1 ->
  exists r, ModPow b e m = Some r /\ 0 <= r < m /\ (r * b ^ (- e)) mod m = 1.
Proof. exact ModPow_neg. Qed.
Print Assumptions C06_ModPow_negative.

Theorem C06_ModPow_not_invertible : forall b e m, 1 < m -> e < 0 -> Z.gcd b m <> 1 ->
  ModPow b e m = None.
Proof. exact ModPow_nil. Qed.
Print Assumptions C06_ModPow_not_invertible.
Example C06_nonvacuous : ModPow 3 (-2) 7 = Some 4 /\ ModPow 6 (-1) 9 = None /\ ModPow (-3) 3 7 = Some 1.
Proof. repeat split; reflexivity. Qed.

(** C07: one argument is hashed injectively … *)
Theorem C07_CalculateHash_single_injective : forall x y,
  CalculateHash_input x None = CalculateHash_input y None -> x = y.
Proof. exact hash_single_inj. Qed.
Print Assumptions C07_CalculateHash_single_injective.

(** … two are not: for every hash function two different pairs collide. *)
Theorem C07_CalculateHash_pair_refuted : exists a b c d : Z, (a, b) <> (c, d) /\
  forall sha, CalculateHash sha a (Some b) = CalculateHash sha c (Some d).
Proof. exists 258, 3, 1, 515. split; [congruence|reflexivity]. Qed.
Print Assumptions C07_CalculateHash_pair_refuted.
