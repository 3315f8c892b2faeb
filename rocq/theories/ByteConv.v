(** * Model of util/byteconversion/conversion.go and parse.go *)
From Coq Require Import ZArith List Bool.
From Verif Require Import Base.
Import ListNotations.
Open Scope Z_scope.

(** conversion.go:114-123, FlipBytes *)
Definition FlipBytes (l : list Z) : list Z := map (fun b => Z.lxor b 255) l.

(** conversion.go:31-61, FromByteArray *)
Definition FromByteArray (bytesIn : list Z) : res Z :=
  match bytesIn with
  | [] => Err                                               (* 35-38 *)
  | highestByte :: _ =>
      let isNegative := negb (Z.land highestByte 128 =? 0) in (* 41 *)
      if isNegative then
        let tmpInt := SetBytes bytesIn - 1 in               (* 46-47 *)
        let tmpBytes := Bytes tmpInt in                     (* 48 *)
        match tmpBytes with
        | [] => Panic                                       (* 50: tmpBytes[0] *)
        | t0 :: _ =>
            let convertedBytes :=
              if t0 =? 255 then tl (FlipBytes tmpBytes)     (* 51 *)
              else FlipBytes tmpBytes                       (* 53-54 *)
            in Ok (SetBytes convertedBytes * (-1))          (* 56-57 *)
        end
      else Ok (SetBytes bytesIn)                            (* 60 *)
  end.

(** conversion.go:70-108, ToByteArray *)
Definition ToByteArray (x : Z) : list Z :=
  let isNegative := x <? 0 in                               (* 72 *)
  let bytes := Bytes x in                                   (* 74 *)
  match bytes with
  | [] => [0]                                               (* 77-79 *)
  | highestByte :: _ =>
      let high := negb (Z.land highestByte 128 =? 0) in
      if negb isNegative then
        if high then 0 :: bytes else bytes                  (* 84-94 *)
      else
        let convertedBytes :=
          if high then 255 :: FlipBytes bytes else FlipBytes bytes (* 96-103 *)
        in Bytes (SetBytes convertedBytes + 1)              (* 105-107 *)
  end.

(** parse.go:56-69, ConvertToBigInt.  The result of SetString is ignored in
    the code; when SetString fails (empty string or a lone sign) the fresh
    integer keeps the value 0. *)
Fixpoint valid_from (index : nat) (l : list Z) : bool :=
  match l with
  | [] => true
  | element :: rest =>
      (is_digit element || ((Nat.eqb index 0) && (element =? 45)))
      && valid_from (S index) rest
  end.
Definition ConvertToBigInt (l : list Z) : res Z :=
  if valid_from 0 l then
    match SetString10 l with Some v => Ok v | None => Ok 0 end
  else Err.

(** parse.go:30-53, ParseInput.  [cur] is in[prevIndex:index] (reversed),
    [output] the integers read so far. *)
Fixpoint parse_loop (rest cur : list Z) (output : list Z) : res (list Z) :=
  match rest with
  | [] => bind (ConvertToBigInt (rev cur)) (fun v => Ok (output ++ [v]))
  | element :: rest' =>
      if element =? 44
      then bind (ConvertToBigInt (rev cur)) (fun v => parse_loop rest' [] (output ++ [v]))
      else parse_loop rest' (element :: cur) output
  end.
Definition ParseInput (l : list Z) : res (list Z) := parse_loop l [] [].
