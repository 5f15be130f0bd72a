(** What is assumed of a decompression library (zlib, libbz2): the documented
    contract of a streaming decompressor for a format. *)
From Verif Require Import Base M_Inflate.

Definition prefix {A} (a b : list A) : Prop := exists t, b = a ++ t.

(** [fmt c x]: the bytes [c] are one complete compressed stream with uncompressed data [x].
    [dec r]: everything that can be decompressed from the bytes [r]. *)
Record format := mkFormat { fmt : list Z -> list Z -> Prop; dec : list Z -> list Z }.
(** a complete stream is not empty and not a proper prefix of another one, and
    determines its data *)
Record format_ok (f : format) : Prop := {
  fo_nonempty : forall x, ~ fmt f [] x;
  fo_prefix_free : forall a t x y, fmt f a x -> fmt f (a ++ t) y -> t = [];
  fo_dec : forall a t x, fmt f a x -> dec f (a ++ t) = x }.

(** [DI d u o]: the decompressor in state [d] has consumed the bytes [u] and produced [o].
    One step consumes a prefix of the offered bytes and produces at most [space] bytes;
    it asks for more only when the space is full or all the bytes are consumed and the stream
    is incomplete; it reports the end exactly behind a complete stream; it reports an error
    only if no complete stream starts the input, and after that reports nothing else. *)
Record codec_ok {D} (f : format) (cd : codec D) (DI : D -> list Z -> list Z -> Prop) : Prop := {
  co_format : format_ok f;
  co_init : DI (c_init cd) [] [];
  co_unended : forall d u o, DI d u o -> forall a b x, u = a ++ b -> b <> [] -> ~ fmt f a x;
  co_step : forall d u o w space d' k y r, DI d u o -> 1 <= space -> c_step cd d w space = (d', k, y, r) ->
    0 <= k <= zlen w /\ zlen y <= space /\ (forall t, prefix (o ++ y) (dec f (u ++ w ++ t))) /\
    match r with
    | More => DI d' (u ++ firstn (Z.to_nat k) w) (o ++ y) /\
              (zlen y = space \/ k = zlen w /\ forall x, ~ fmt f (u ++ w) x)
    | End => fmt f (u ++ firstn (Z.to_nat k) w) (o ++ y)
    | Bad => (forall t a b x, u ++ w ++ t = a ++ b -> ~ fmt f a x) /\
             (forall w' sp, exists d'' k', c_step cd d' w' sp = (d'', k', [], Bad))
    end }.

(** The little that is assumed when the compressed data may be anything: one call consumes and writes no
    more than it was offered, and the output is bounded in terms of the input (for deflate the factor is 1032).
    [DI d u o]: the decompressor has consumed [u] and produced [o] bytes. *)
Record sane_codec {D} (cd : codec D) (X : Z) (DI : D -> Z -> Z -> Prop) : Prop := {
  sc_init : DI (c_init cd) 0 0;
  sc_bound : forall d u o, DI d u o -> o <= X * (u + 1);
  sc_step : forall d u o w space d' k y r, DI d u o -> 1 <= space -> c_step cd d w space = (d', k, y, r) ->
    0 <= k <= zlen w /\ zlen y <= space /\ Forall (fun c => 0 <= c < 256) y /\ DI d' (u + k) (o + zlen y) }.
