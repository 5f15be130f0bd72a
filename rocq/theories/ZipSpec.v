(** The zip format as far as it can be read as a stream, as a relation between bytes and members. *)
From Verif Require Import Base TextSpec ArchiveSpec InflateSpec TarSpec.

(** local file header: signature, version, flags, method, DOS time and date, CRC, compressed size,
    size, length of the name, length of the extra field; name; extra field. Numbers are little endian. *)
Definition zip_local (flags method dos csize size : Z) (name : list Z) (h : list Z) : Prop :=
  exists ver fl me dt crc cs us nl el extra,
    h = [80;75;3;4] ++ ver ++ fl ++ me ++ dt ++ crc ++ cs ++ us ++ nl ++ el ++ name ++ extra /\
    zlen ver = 2 /\ zlen fl = 2 /\ zlen me = 2 /\ zlen dt = 4 /\ zlen crc = 4 /\ zlen cs = 4 /\ zlen us = 4 /\ zlen nl = 2 /\ zlen el = 2 /\
    le_value fl = flags /\ le_value me = method /\ le_value dt = dos /\ le_value cs = csize /\ le_value us = size /\
    le_value nl = zlen name /\ le_value el = zlen extra /\ zlen name <= 65535 /\ zlen extra <= 65535 /\ 0 <= csize <= INT32_MAX.
(** data descriptor with the optional signature: CRC, compressed size, size *)
Definition zip_signed (d : list Z) : Prop := exists r, d = [80;75;7;8] ++ r /\ zlen r = 12.
Definition zip_unsigned (d : list Z) : Prop := zlen d = 12 /\ le_value (slice d 0 4) <> le_value [80;75;7;8].
(** directories have names that end in '/', which is not announced *)
Definition zip_type (name : list Z) : Z := match rev name with 47 :: _ => 1 | _ => 2 end.

(** [unix]: DOS time to seconds; [f]: the deflate format. Behind the members comes a
    record that is neither a member nor a data descriptor (the central directory) *)
Inductive zip_archive (unix : Z -> Z) (f : format) : list Z -> list member -> Prop :=
| zip_end x y t : 0 <= x < 256 -> 0 <= y < 256 -> (x, y) <> (3, 4) -> (x, y) <> (7, 8) -> 26 <= zlen t ->
    zip_archive unix f (80 :: 75 :: x :: y :: t) []
| zip_stored flags dos name h data rest ms :
    zip_local flags 0 dos (zlen data) (zlen data) name h -> Z.testbit flags 3 = false -> announced name <> [] -> zlen data <= INT32_MAX ->
    zip_archive unix f rest ms ->
    zip_archive unix f (h ++ data ++ rest) (mkMember (mkInfo (announced name) (zlen data) (unix dos) (zip_type name)) data :: ms)
| zip_deflated flags dos name h comp data desc rest ms :
    zip_local flags 8 dos (zlen comp) (zlen data) name h -> Z.testbit flags 3 = false -> announced name <> [] -> zlen data <= INT32_MAX ->
    fmt f comp data -> (desc = [] \/ zip_signed desc) -> zip_archive unix f rest ms ->
    zip_archive unix f (h ++ comp ++ desc ++ rest) (mkMember (mkInfo (announced name) (zlen data) (unix dos) (zip_type name)) data :: ms)
| zip_streamed flags dos csize size name h comp data desc rest ms :
    zip_local flags 8 dos csize size name h -> Z.testbit flags 3 = true -> announced name <> [] -> zlen data <= INT32_MAX ->
    fmt f comp data -> (zip_unsigned desc \/ zip_signed desc) -> zip_archive unix f rest ms ->
    zip_archive unix f (h ++ comp ++ desc ++ rest) (mkMember (mkInfo (announced name) (-1) (unix dos) (zip_type name)) data :: ms).
