(** What is assumed of zlib's deflate(): the documented contract of a streaming compressor. *)
From Verif Require Import Base M_Deflate InflateSpec.

(** [comp x]: the complete compressed form of [x] (for a given level it does not depend on how the
    data is cut into pieces; zlib keeps this for the levels 1 to 9 and the default).
    [EI d u o fin]: the compressor in state [d] has consumed [u] and produced [o]; [fin]: Z_FINISH
    has been requested, after which Z_NO_FLUSH is not allowed.
    With Z_NO_FLUSH it consumes a prefix of the offered bytes and stops only when all of them are
    consumed or the space is full; with Z_FINISH and no more input it writes the rest, until
    it is all written (Z_STREAM_END) or the space is full (Z_OK). *)
Record compressor_ok {D} (comp : list Z -> list Z) (cp : compressor D) (EI : D -> list Z -> list Z -> bool -> Prop) : Prop := {
  ce_init : exists d, e_init cp = Some d /\ EI d [] [] false;
  ce_step : forall d u o w space d' k y r, EI d u o false -> w <> [] -> 1 <= space -> e_step cp d w false space = (d', k, y, r) ->
    r = EOk /\ 0 <= k <= zlen w /\ zlen y <= space /\ (k = zlen w \/ zlen y = space) /\
    EI d' (u ++ firstn (Z.to_nat k) w) (o ++ y) false /\ forall t, prefix (o ++ y) (comp (u ++ w ++ t));
  ce_finish : forall d u o fin space d' k y r, EI d u o fin -> 1 <= space -> e_step cp d [] true space = (d', k, y, r) ->
    zlen y <= space /\
    (r = EEnd /\ o ++ y = comp u \/
     r = EOk /\ zlen y = space /\ EI d' u (o ++ y) true /\ prefix (o ++ y) (comp u)) }.
