(** What is assumed of the LZMA decoder. *)
From Verif Require Import Base M_Lzma InflateSpec.

(** [dec r]: everything that can be decoded from the bytes [r].
    [valid c x]: [c] is complete LZMA data for [x], with or without end mark; [marked c x]: with end mark. *)
Record lzformat := mkLzformat { lz_dec : list Z -> list Z; lz_valid : list Z -> list Z -> Prop; lz_marked : list Z -> list Z -> Prop }.

(** [DI d u o]: the decoder in state [d] has consumed [u], produced [o] and seen no end mark.
    A call with at least one byte of input makes progress.  It produces no more than asked for.
    Data behind complete data is not consumed before all output is produced (but output may be pending when
    the last byte of the data has been consumed).  The mark is reported by the call that consumes it.
    Errors are reported only if the data is not valid for the size asked for. *)
Record lzma_ok {D} (f : lzformat) (cd : lzcodec D) (DI : D -> list Z -> list Z -> Prop) : Prop := {
  lo_valid : forall c x t, lz_valid f c x -> prefix x (lz_dec f (c ++ t));
  lo_marked : forall c x, lz_marked f c x -> lz_valid f c x /\ forall t, lz_dec f (c ++ t) = x;
  lo_init : DI (l_init cd) [] [];
  lo_lazy : forall d u o c t x, DI d u o -> lz_valid f c x -> u = c ++ t -> t <> [] -> zlen x <= zlen o;
  lo_unended : forall d u o c t x, DI d u o -> lz_marked f c x -> u <> c ++ t;
  lo_step : forall d u o w space fin d' k y r, DI d u o -> w <> [] -> 1 <= space -> l_step cd d w space fin = (d', k, y, r) ->
    0 <= k <= zlen w /\ zlen y <= space /\ (forall t, prefix (o ++ y) (lz_dec f (u ++ w ++ t))) /\
    match r with
    | LOk mark => (0 < k \/ 0 < zlen y) /\
        if mark then lz_marked f (u ++ firstn (Z.to_nat k) w) (o ++ y) else DI d' (u ++ firstn (Z.to_nat k) w) (o ++ y)
    | LBad => forall t c b x, u ++ w ++ t = c ++ b -> lz_valid f c x ->
        if fin then zlen x <> zlen o + space else ~ lz_marked f c x /\ zlen x < zlen o + space
    end }.
(** The little that is assumed when the compressed data may be anything: as InflateSpec.sane_codec. *)
Record sane_lzcodec {D} (cd : lzcodec D) (X : Z) (DI : D -> Z -> Z -> Prop) : Prop := {
  sl_init : DI (l_init cd) 0 0;
  sl_bound : forall d u o, DI d u o -> o <= X * (u + 1);
  sl_step : forall d u o w space fin d' k y r, DI d u o -> 1 <= space -> l_step cd d w space fin = (d', k, y, r) ->
    0 <= k <= zlen w /\ zlen y <= space /\ match r with LOk _ => Forall (fun c => 0 <= c < 256) y /\ DI d' (u + k) (o + zlen y) | LBad => True end }.
