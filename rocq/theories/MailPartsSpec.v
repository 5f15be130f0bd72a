(** Specification for C45 and C46: messages with several parts (RFC 2046), and what it means that a provider lists them. *)
From Verif Require Import Base StreamSpec SegSpec KmpSpec BufferedSpec ArchiveSpec B64Spec.

(** ** Text *)
Definition low (c : Z) : Z := if (65 <=? c) && (c <=? 90) then c + 32 else c.
Definition white (c : Z) : Prop := c = 32 \/ 9 <= c <= 13.
(** lines end with CR LF or with LF *)
Definition newline (nl : list Z) : Prop := nl = [13;10] \/ nl = [10].
(** text in which every line break is followed by a space or a tab *)
Inductive folded (nl : list Z) : list Z -> Prop :=
| fd_nil : folded nl []
| fd_char : forall c r, c <> 13 -> c <> 10 -> folded nl r -> folded nl (c :: r)
| fd_break : forall c r, c = 32 \/ c = 9 -> folded nl r -> folded nl (nl ++ c :: r).
(** [t] does not continue the line before it: it starts with a line break or with a character that is not white space *)
Definition unfolded (nl t : list Z) : Prop := exists c r, t = c :: r /\ (~ white c \/ Some c = hd_error nl).
(** [n] (small letters) occurs in [s] at [d], in whatever case *)
Definition occurs_ci (n s : list Z) (d : Z) : Prop := 0 <= d /\ d + zlen n <= zlen s /\ map low (slice s d (zlen n)) = n.
Definition absent (n s : list Z) : Prop := forall d, ~ occurs_ci n s d.
(** [s] has the parameter [n] with the value [v]: n="v" or n=v, ended by ';' or the end of [s], and this is the first [n] in [s] *)
Definition has_param (n v s : list Z) : Prop :=
  exists pre nm post, map low nm = n /\ (post = [] \/ exists r, post = 59 :: r) /\ v <> [] /\ ~ In 59 v /\ ~ In 0 s /\
    (s = pre ++ nm ++ [61;34] ++ v ++ [34] ++ post \/
     s = pre ++ nm ++ [61] ++ v ++ post /\ ~ (exists r, v = 34 :: r \/ v = 61 :: r \/ v = 32 :: r \/ v = 10 :: r \/ v = 13 :: r)) /\
    forall d, d < zlen pre -> ~ occurs_ci n s d.

(** ** Headers *)
Record header := mkHeader { h_name : list Z; h_value : list Z }.
Definition header_ok (nl : list Z) (maxl : Z) (h : header) : Prop :=
  (exists c r, h_name h = c :: r /\ ~ white c) /\ ~ In 13 (h_name h) /\ ~ In 10 (h_name h) /\ ~ In 58 (h_name h) /\ folded nl (h_value h) /\
  zlen (h_name h) + 1 + zlen (h_value h) + zlen nl < maxl.
Definition header_text (nl : list Z) (h : header) : list Z := h_name h ++ 58 :: h_value h ++ nl.
Definition headers_text (nl : list Z) (hs : list header) : list Z := concat (map (header_text nl) hs).
Definition named (n : list Z) (h : header) : Prop := map low (h_name h) = n.
Definition namedb (n : list Z) (h : header) : bool := if list_eq_dec Z.eq_dec (map low (h_name h)) n then true else false.
(** the value of the last header with this name *)
Definition last_named (n : list Z) (hs : list header) : option (list Z) :=
  hd_error (rev (map h_value (filter (namedb n) hs))).
Definition content_type : list Z := [99;111;110;116;101;110;116;45;116;121;112;101].
Definition content_disposition : list Z := [99;111;110;116;101;110;116;45;100;105;115;112;111;115;105;116;105;111;110].
Definition content_transfer_encoding : list Z := [99;111;110;116;101;110;116;45;116;114;97;110;115;102;101;114;45;101;110;99;111;100;105;110;103].
Definition k_filename : list Z := [102;105;108;101;110;97;109;101].
Definition k_name : list Z := [110;97;109;101].
Definition k_boundary : list Z := [98;111;117;110;100;97;114;121].
Definition k_base64 : list Z := [98;97;115;101;54;52].

(** the name of a part: the file name of its disposition, or the name in its type *)
Inductive part_name (hs : list header) : option (list Z) -> Prop :=
| pn_filename : forall s v, last_named content_disposition hs = Some s -> has_param k_filename v s -> part_name hs (Some v)
| pn_name : forall s v, (forall s', last_named content_disposition hs = Some s' -> absent k_filename s') ->
    last_named content_type hs = Some s -> has_param k_name v s -> part_name hs (Some v)
| pn_none : (forall s', last_named content_disposition hs = Some s' -> absent k_filename s') ->
    (forall s', last_named content_type hs = Some s' -> absent k_name s') -> part_name hs None.
(** whether its content is encoded in base64 *)
Inductive part_encoding (hs : list header) : bool -> Prop :=
| pe_base64 : forall s d, last_named content_transfer_encoding hs = Some s -> ~ In 0 s -> occurs_ci k_base64 s d -> part_encoding hs true
| pe_plain : (forall s, last_named content_transfer_encoding hs = Some s -> absent k_base64 s) -> part_encoding hs false.
(** whether the content is again divided into parts, and by which boundary *)
Definition leaf_headers (hs : list header) : Prop := forall h, In h hs -> named content_type h -> absent k_boundary (h_value h).
Definition multipart_headers (hs : list header) (b : list Z) : Prop :=
  exists hs1 h hs2, hs = hs1 ++ h :: hs2 /\ named content_type h /\ has_param k_boundary b (h_value h) /\
    forall h', In h' (hs1 ++ hs2) -> ~ named content_type h'.

(** ** Messages *)
Record mpart := mkPart { p_name : option (list Z); p_enc : bool; p_data : list Z; p_tl : Z }.
Definition delimiter (b : list Z) : list Z := 45 :: 45 :: b.
Definition close_delimiter (b : list Z) : list Z := 45 :: 45 :: b ++ [45;45].
(** delimiters the search is exact for (C11) and that are not too long; line lengths are limited by [maxl] *)
Definition boundary_ok (maxl : Z) (b : list Z) : Prop := b <> [] /\ ~ In 0 b /\ ~ In 13 b /\ ~ In 10 b /\ short_or_unique_tail (delimiter b) /\ zlen b + 8 < maxl.
(** the first line of [x] (with its continuation lines) is not too long *)
Definition short_start (nl : list Z) (maxl : Z) (x : list Z) : Prop :=
  exists u c r, x = u ++ nl ++ c :: r /\ ~ white c /\ zlen u + zlen nl < maxl /\ (nl = [10] -> ~ In 13 u).
(** a blank line followed by [t] is taken for a blank line *)
Definition blank_ok (nl t : list Z) : Prop := nl = [13;10] \/ unfolded nl t.

(** [parts bs t ps]: [t] is the rest of a message in which the multiparts with the boundaries [bs] (innermost first) are open,
    and [ps] are the parts to come.
    pt_text: a line of text before the first part or after the last part of a multipart.
    pt_part: a part.  pt_open: a part that is itself a multipart.  pt_close: the end of a multipart. *)
Inductive parts (nl : list Z) (maxl : Z) : list (list Z) -> list Z -> list mpart -> Prop :=
| pt_text : forall b bs l t ps, folded nl l -> (forall c, hd_error l = Some c -> c <> 13 /\ c <> 10) ->
    l <> delimiter b -> l <> close_delimiter b -> zlen l + zlen nl < maxl -> (l = [] /\ nl = [13;10] \/ unfolded nl t) ->
    parts nl maxl (b :: bs) t ps -> parts nl maxl (b :: bs) (l ++ nl ++ t) ps
| pt_part : forall b bs hs body t r ps nm enc, Forall (header_ok nl maxl) hs -> leaf_headers hs -> part_name hs nm -> part_encoding hs enc ->
    t = delimiter b ++ r -> (forall d, 0 <= d < zlen body + zlen nl -> ~ occurs_at (delimiter b) (body ++ nl ++ t) d) ->
    blank_ok nl (body ++ nl ++ t) -> short_start nl maxl (body ++ nl ++ t) ->
    parts nl maxl (b :: bs) t ps ->
    parts nl maxl (b :: bs) (delimiter b ++ nl ++ headers_text nl hs ++ nl ++ body ++ nl ++ t)
      (mkPart nm enc (if enc then b64decoded body else body ++ nl) (zlen (delimiter b)) :: ps)
| pt_open : forall b bs hs b' t ps, Forall (header_ok nl maxl) hs -> multipart_headers hs b' -> boundary_ok maxl b' -> blank_ok nl t ->
    parts nl maxl (b' :: b :: bs) t ps ->
    parts nl maxl (b :: bs) (delimiter b ++ nl ++ headers_text nl hs ++ nl ++ t) ps
| pt_close : forall b bs t ps, unfolded nl t \/ bs = [] /\ t = [] -> parts nl maxl bs t ps ->
    parts nl maxl (b :: bs) (close_delimiter b ++ nl ++ t) ps
| pt_end : forall t, parts nl maxl [] t [].
(** a message with several parts *)
Definition message (nl : list Z) (maxl : Z) (text : list Z) (ps : list mpart) : Prop :=
  exists hs b t, text = headers_text nl hs ++ nl ++ t /\ Forall (header_ok nl maxl) hs /\ multipart_headers hs b /\ boundary_ok maxl b /\
    blank_ok nl t /\ parts nl maxl [b] t ps.

(** ** Listing *)
(** [s] is the number [n] in decimal notation *)
Definition decimal (n : Z) (s : list Z) : Prop :=
  Forall (fun c => 48 <= c <= 57) s /\ (exists c r, s = c :: r /\ c <> 48) /\ fold_left (fun a c => 10 * a + (c - 48)) s 0 = n.
(** calls on a part; the stream of a part that is not encoded supports reset only within the segment that was read last (SegSpec.v) *)
Definition part_call (lim : Z) (p : mpart) : call -> Prop :=
  if p_enc p then call_ok (p_data p) BUF_LIM else seg_call lim (p_tl p).
Definition part_obs (p : mpart) (h : list call) (obs : list (obs Z)) : Prop :=
  if p_enc p then accepts (p_data p) False view0 h obs else accepts_seg false (p_data p) False view0 h obs.
(** Iterating from [st] lists exactly the parts [ps], the first being the [k]-th of the message: each nextEntry() announces
    the next part with its name, or its number if it has none (without a size or a time); its stream has the content of the part
    under every history of calls, the iteration goes on correctly whatever that history was, and after the last part
    nextEntry() returns null and status() is Eof. *)
Fixpoint lists_parts {St} (pv : provider St) (lim : Z) (k : Z) (ps : list mpart) (st : St) : Prop :=
  match ps with
  | [] => exists st', pv_next pv st = Ret (st', None) /\ pv_status pv st' = Eof
  | p :: ps' => exists st1 i, pv_next pv st = Ret (st1, Some i) /\ pv_status pv st1 = Ok /\
      match p_name p with Some v => i_name i = v | None => decimal k (i_name i) end /\ (i_size i = -1 /\ i_mtime i = 0) /\ i_type i = 2 /\
      forall h, Forall (part_call lim p) h ->
        exists st2 obs, pv_entry pv st1 h = Ret (st2, obs) /\ part_obs p h obs /\ lists_parts pv lim (k + 1) ps' st2
  end.
