(** SpecFrame.v -- specification of framing: what `check` must answer. *)
From Verif Require Import Base SpecWire Lib.

(** The verdict on a byte stream [s] under the limit [max]:  only [FixedHeader]
    (the API's result record: first byte, header size, declared length) is taken
    from the model. *)
Inductive verdict (s : bytes) (max : N) : outcome FixedHeader -> Prop :=
| v_tiny :                                   (* fewer than two bytes *)
    blen s < 2 -> verdict s max (Err (InsufficientBytes (2 - blen s)))
| v_open b1 r :                              (* length field not finished yet *)
    s = b1 :: r -> 1 <= blen r -> blen r < 4 -> Forall has_cont r ->
    verdict s max (Err (InsufficientBytes 1))
| v_malformed b1 a b c d r :                 (* length field longer than four bytes *)
    s = b1 :: a :: b :: c :: d :: r -> Forall has_cont [a; b; c; d] ->
    verdict s max (Err MalformedRemainingLength)
| v_limit b1 f n r :                         (* declared length over the limit *)
    s = b1 :: f ++ r -> lenfield f n -> blen f <= 4 -> max < n ->
    verdict s max (Err (PayloadSizeLimitExceeded n))
| v_partial b1 f n r :                       (* body incomplete: exact number missing *)
    s = b1 :: f ++ r -> lenfield f n -> blen f <= 4 -> n <= max -> blen r < n ->
    verdict s max (Err (InsufficientBytes (n - blen r)))
| v_complete b1 f n r :                      (* a whole frame is there *)
    s = b1 :: f ++ r -> lenfield f n -> blen f <= 4 -> n <= max -> n <= blen r ->
    verdict s max (Ok (mkFixedHeader b1 (1 + blen f) n)).
