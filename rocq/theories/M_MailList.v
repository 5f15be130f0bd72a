(** Model of the listing part of /repo/lib/mailinputstream.cpp (311-684) over an arbitrary input stream.
    The decoding of header values (HeaderDecoder) is modelled in M_Mail.v; here the text that is given to
    it is recorded.  Bytes are 0..255; isspace and isblank are those of the C locale. *)
From Verif Require Import Base StreamSpec M_Sub M_Buffered M_Base64 M_StringTerm ArchiveSpec SegSpec M_Ar M_Mail M_Reader.

(** mailinputstream.cpp:405-441: one character [c] at [linepos]; inl: the line ends and lineend is
    linestart + that; inr: the new state (0, 1: '\r', 2: '\n', 3: '\r\n') *)
Definition hl_char (state linepos c : Z) : Z + Z :=
  if state =? 0 then inr (if c =? 13 then 1 else if c =? 10 then 2 else 0)
  else if state =? 1 then
    if c =? 10 then inr 3 else if (c =? 13) || negb (is_ws c) then inl (linepos - 1) else inr 0
  else if state =? 2 then
    if (c =? 10) || negb (is_ws c) then inl (linepos - 1) else inr 0
  else if (c =? 13) || (linepos =? 2) || negb (is_ws c) then inl (linepos - 2) else inr 0.
(** mailinputstream.cpp:405-441, the inner loop over the rest of what was read; inl (lineend, linepos) *)
Fixpoint hl_scan (l : list Z) (linepos state : Z) : Z * Z + Z :=
  match l with
  | [] => inr state
  | c :: l' => match hl_char state linepos c with
               | inl e => inl (e, linepos)
               | inr state => hl_scan l' (linepos + 1) state
               end
  end.

(** [HLine l next]: a line, and where the next one starts; [HEof l]: m_status becomes Eof, the line is what was
    left (nothing if the read failed); [HErr]: m_status becomes Error and lineend still is the one of an earlier line *)
Inductive hline := HLine (l : list Z) (next : Z) | HEof (l : list Z) | HErr.

(** strcasestr: offset of the first occurrence of [n] (small letters) in [s], which has no 0 *)
Fixpoint ci_prefix (n s : list Z) : bool :=
  match n with
  | [] => true
  | c :: n' => match s with [] => false | d :: s' => (c =? tolower d) && ci_prefix n' s' end
  end.
(** C library or compat.cpp:92-121: strcasestr, called in mailinputstream.cpp:509-573, 588-641 *)
Fixpoint strcasestr (n s : list Z) : option Z :=
  if ci_prefix n s then Some 0
  else match s with [] => None | _ :: s' => match strcasestr n s' with Some i => Some (i + 1) | None => None end end.
(** strspn(s, "= \n\r") *)
Fixpoint span_eq (s : list Z) : Z :=
  match s with
  | c :: s' => if (c =? 61) || (c =? 32) || (c =? 10) || (c =? 13) then 1 + span_eq s' else 0
  | [] => 0
  end.
(** strchr(s, ';') *)
Fixpoint find_semi (s : list Z) : option Z :=
  match s with
  | [] => None
  | c :: s' => if c =? 59 then Some 0 else match find_semi s' with Some i => Some (i + 1) | None => None end
  end.
(** mailinputstream.cpp:446-469 *)
Definition value (n : list Z) (headerline : list Z) : list Z :=
  let hl := c_str headerline in
  match strcasestr n hl with
  | None => []
  | Some i =>
      let v := i + zlen n in
      let v := v + span_eq (skipn (Z.to_nat v) hl) in
      let vend := match find_semi (skipn (Z.to_nat v) hl) with Some k => v + k | None => zlen headerline end in
      if (nth (Z.to_nat v) hl 0 =? 34) && (2 <? vend - v) then slice headerline (v + 1) (vend - v - 2)
      else slice headerline v (vend - v)
  end.
(** mailinputstream.cpp:574-584; the line is not empty there *)
Definition checkHeaderLine (l : list Z) : bool :=
  match l with
  | [] => false
  | c :: _ => existsb (Z.eqb 58) l || (c =? 32) || (c =? 9)
  end.
(** leading white space is skipped (527 and the like) *)
Fixpoint drop_ws (l : list Z) : list Z :=
  match l with [] => [] | c :: l' => if is_ws c then drop_ws l' else l end.

(** the header fields that can be asked for *)
Inductive field := FSubject | FTo | FFrom | FCc | FBcc | FMessageId | FInReplyTo | FReferences.
(** not code: equality of the names of the header fields (mailinputstream.cpp:446-469) *)
Definition field_eqb (a b : field) : bool :=
  match a, b with
  | FSubject, FSubject | FTo, FTo | FFrom, FFrom | FCc, FCc | FBcc, FBcc
  | FMessageId, FMessageId | FInReplyTo, FInReplyTo | FReferences, FReferences => true
  | _, _ => false
  end.
(** mailinputstream.cpp:311-324, mailinputstream.h: what header lines change.  [hd_meta]: the undecoded values.
    [hd_bound]: the stack, top first *)
Record headers := mkHd { hd_meta : field -> list Z; hd_ct : list Z; hd_cte : list Z; hd_cd : list Z; hd_bound : list (list Z) }.
(** not code: assignment to m_subject, m_to, ... (mailinputstream.cpp:446-469) *)
Definition set_meta (h : headers) (f : field) (v : list Z) : headers :=
  mkHd (fun g => if field_eqb f g then v else hd_meta h g) (hd_ct h) (hd_cte h) (hd_cd h) (hd_bound h).
(** the string "boundary" (mailinputstream.cpp:564) *)
Definition s_boundary : list Z := [98;111;117;110;100;97;114;121].
(** mailinputstream.cpp:509-573, for a line with its terminator behind it (so that strncasecmp, which stops at the
    first difference, does not leave it) *)
Definition handleHeaderLine (h : headers) (l : list Z) : headers :=
  let rest n := drop_ws (skipn n l) in
  if zlen l <? 8 then h
  else if ci_prefix [115;117;98;106;101;99;116;58] l then set_meta h FSubject (rest 8%nat)
  else if ci_prefix [116;111;58] l then set_meta h FTo (rest 3%nat)
  else if ci_prefix [102;114;111;109;58] l then set_meta h FFrom (rest 5%nat)
  else if ci_prefix [99;99;58] l then set_meta h FCc (rest 3%nat)
  else if ci_prefix [98;99;99;58] l then set_meta h FBcc (rest 4%nat)
  else if ci_prefix [109;101;115;115;97;103;101;45;105;100;58] l then set_meta h FMessageId (rest 11%nat)
  else if ci_prefix [105;110;45;114;101;112;108;121;45;116;111;58] l then set_meta h FInReplyTo (rest 12%nat)
  else if ci_prefix [114;101;102;101;114;101;110;99;101;115;58] l then set_meta h FReferences (rest 11%nat)
  else if ci_prefix [99;111;110;116;101;110;116;45;116;121;112;101;58] l then
    let ct := rest 13%nat in
    let b := value s_boundary ct in
    mkHd (hd_meta h) ct (hd_cte h) (hd_cd h) (match b with [] => hd_bound h | _ => b :: hd_bound h end)
  else if ci_prefix [99;111;110;116;101;110;116;45;116;114;97;110;115;102;101;114;45;101;110;99;111;100;105;110;103;58] l then mkHd (hd_meta h) (hd_ct h) l (hd_cd h) (hd_bound h)
  else if ci_prefix [99;111;110;116;101;110;116;45;100;105;115;112;111;115;105;116;105;111;110;58] l then mkHd (hd_meta h) (hd_ct h) (hd_cte h) l (hd_bound h)
  else h.
(** mailinputstream.cpp:612: the string "filename" *)
Definition s_filename : list Z := [102;105;108;101;110;97;109;101].
(** mailinputstream.cpp:614: the string "name" *)
Definition s_name : list Z := [110;97;109;101].
(** mailinputstream.cpp:620: the string "base64" *)
Definition s_base64 : list Z := [98;97;115;101;54;52].
(** mailinputstream.cpp:651: the string "body" *)
Definition s_body : list Z := [98;111;100;121].

(** the digits of a positive number, as operator<< of ostringstream writes it; [fuel] bounds their number *)
Fixpoint digits (fuel : nat) (n : Z) (acc : list Z) : list Z :=
  match fuel with
  | O => acc
  | S f => let acc := (48 + n mod 10) :: acc in if n <? 10 then acc else digits f (n / 10) acc
  end.
(** mailinputstream.cpp:632-641: the number written to the ostringstream *)
Definition number (n : Z) : list Z := digits (S (Z.to_nat (Z.log2 n))) n [].

Section MailList.
Context {P : Type}.
Variable par : ops P Z.
(** maxlinesize, 1024*1024 in the code (471) *)
Variable maxl : Z.
(** unrolling bound of each loop (running out of it is the outcome [Hang]) *)
Variable fuel : nat.

(** mailinputstream.cpp:383-443, the do loop; [p] is at [next] *)
Fixpoint hl_loop (f : nat) (p : P) (next linepos state : Z) : out (P * hline) :=
  match f with
  | O => Hang
  | S f =>
      let* (p, nread, d) := o_read par p (linepos + 1) maxl in
      if nread <? linepos + 1 then Ret (p, HEof (slice d 0 nread))
      else
        let* (p, _) := o_reset par p next in
        if is_error (o_status par p) || (maxl <=? linepos) then Ret (p, HErr)
        else if zlen d <? nread then UB
        else match hl_scan (skipn (Z.to_nat linepos) (slice d 0 nread)) linepos state with
             | inl (e, linepos) => Ret (p, HLine (slice d 0 e) (next + linepos))
             | inr state => hl_loop f p next nread state
             end
  end.
(** mailinputstream.cpp:373-445 *)
Definition readHeaderLine (p : P) (next : Z) : out (P * hline) :=
  let* (p, _) := o_reset par p next in hl_loop fuel p next 0 0.

(** m_status, nextLineStartPosition, the input and the headers *)
Record ml := mkMl { l_in : P; l_next : Z; l_hd : headers; l_st : status }.
(** mailinputstream.cpp:373-445 readHeaderLine, with the status it sets *)
Definition l_line (m : ml) : out (ml * hline) :=
  let* (p, r) := readHeaderLine (l_in m) (l_next m) in
  Ret (match r with
       | HLine _ next => mkMl p next (l_hd m) (l_st m)
       | HEof _ => mkMl p (l_next m) (l_hd m) Eof
       | HErr => mkMl p (l_next m) (l_hd m) Error
       end, r).

(** mailinputstream.cpp:470-479 *)
Fixpoint readHeader (f : nat) (m : ml) : out ml :=
  match f with
  | O => Hang
  | S f =>
      let* (m, r) := l_line m in
      match r with
      | HLine (c :: l) _ => readHeader f (mkMl (l_in m) (l_next m) (handleHeaderLine (l_hd m) (c :: l)) (l_st m))
      | _ => Ret m
      end
  end.
(** mailinputstream.cpp:594-602 *)
Fixpoint partHeader (f : nat) (m : ml) : out ml :=
  match f with
  | O => Hang
  | S f =>
      let* (m, r) := l_line m in
      match r with
      | HLine l _ => if match l_st m with Ok => checkHeaderLine l | _ => false end then partHeader f (mkMl (l_in m) (l_next m) (handleHeaderLine (l_hd m) l) (l_st m)) else Ret m
      | _ => Ret m
      end
  end.
(** the current entry: none, the whole body, a part, an encoded part *)
Inductive cur := CSub (s : sub P) | CPart (s : sts P) | CB64 (x : bstream (b64 (sts P)) Z).
(** mailinputstream.cpp:588-626; the input is given away to the stream of the part *)
Definition handleBodyLine (m : ml) : out (ml * option (cur * list Z)) :=
  let hd := l_hd m in
  let n := length (hd_bound hd) in
  let* m := partHeader fuel (mkMl (l_in m) (l_next m) (mkHd (hd_meta hd) [] [] [] (hd_bound hd)) (l_st m)) in
  let hd := l_hd m in
  if Nat.ltb n (length (hd_bound hd)) then Ret (m, None)
  else
    let* (m, _) := l_line m in
    match l_st m with
    | Ok =>
        let filename := value s_filename (hd_cd hd) in
        let filename := match filename with [] => value s_name (hd_ct hd) | _ => filename end in
        match hd_bound hd with
        | [] => UB
        | b :: _ =>
            let* s := st_new par (l_in m) (45 :: 45 :: b) in
            Ret (m, Some (match strcasestr s_base64 (c_str (hd_cte hd)) with
                          | Some _ => CB64 (bs_new (b64_new s))
                          | None => CPart s
                          end, filename))
        end
    | _ => Ret (m, None)
    end.
(** mailinputstream.cpp:484-508.  After an error lineend belongs to an earlier line: undefined *)
Fixpoint scanBody (f : nat) (m : ml) : out (ml * option (cur * list Z)) :=
  match l_st m with
  | Ok =>
      match f with
      | O => Hang
      | S f =>
          let* (m, r) := l_line m in
          match r with
          | HErr => UB
          | HLine l _ | HEof l =>
              if (2 <? zlen l) && list_eqb (slice l 0 2) [45;45] then
                match hd_bound (l_hd m) with
                | [] => UB
                | b :: bs =>
                    if (zlen l =? zlen b + 4) && list_eqb (slice l (2 + zlen b) 2) [45;45] && strncmp_eq (skipn 2 l) b (length b) then
                      let hd := l_hd m in
                      scanBody f (mkMl (l_in m) (l_next m) (mkHd (hd_meta hd) (hd_ct hd) (hd_cte hd) (hd_cd hd) bs)
                                       (match bs with [] => Eof | _ => l_st m end))
                    else if (zlen l =? zlen b + 2) && strncmp_eq (skipn 2 l) b (length b) then
                      let* (m, r) := handleBodyLine m in
                      match r with Some e => Ret (m, Some e) | None => scanBody f m end
                    else scanBody f m
                end
              else scanBody f m
          end
      end
  | _ => Ret (m, None)
  end.

(** the whole MailInputStream between two calls: [a_ml] (its input is meaningful only when there is no current entry),
    [a_cur]: the current entry, [a_num]: entrynumber, [a_info]: m_entryinfo *)
Record mail := mkMail { a_ml : ml; a_cur : option cur; a_num : Z; a_info : info }.
(** mailinputstream.cpp:343-361 (the constructor) *)
Definition mail_new (p : P) : out mail :=
  let* m := readHeader fuel (mkMl p 0 (mkHd (fun _ => []) [] [] [] []) Ok) in
  Ret (mkMail m None 0 (mkInfo [] (-1) 0 0)).
(** mailinputstream.cpp:655-659 *)
Fixpoint drain (f : nat) (s : sts P) : out (sts P) :=
  match t_st s with
  | Ok => match f with
          | O => Hang
          | S f => let* (s, _, _) := st_read par s 1 0 in drain f s
          end
  | _ => Ret s
  end.
(** the StringTerminatedSubStream of the current entry *)
Definition cur_sub (c : cur) : option (sts P) :=
  match c with CSub _ => None | CPart s => Some s | CB64 x => Some (q_par (bs_src x)) end.
(** mailinputstream.cpp:642-684, with ensureFileName (632-641) *)
Definition mail_next (a : mail) : out (mail * option info) :=
  let m := a_ml a in
  match l_st m with
  | Ok =>
      match hd_bound (l_hd m) with
      | [] =>
          let* s := sub_new par (l_in m) (-1) in
          let inf := mkInfo s_body (i_size (a_info a)) (i_mtime (a_info a)) (i_type (a_info a)) in
          Ret (mkMail (mkMl (l_in m) (l_next m) (l_hd m) Eof) (Some (CSub s)) (a_num a) inf, Some inf)
      | _ =>
          let* m := match match a_cur a with Some c => cur_sub c | None => None end with
                    | None => Ret m
                    | Some s =>
                        let* s := drain fuel s in
                        Ret (match t_st s with
                             | Error => mkMl (t_in s) (l_next m) (l_hd m) Error
                             | _ => mkMl (t_in s) (t_off s + t_size s) (l_hd m) (l_st m)
                             end)
                    end in
          match l_st m with
          | Ok =>
              let* (m, r) := scanBody fuel m in
              let num := a_num a + 1 in
              let name := match r with Some (_, name) => name | None => i_name (a_info a) end in
              let name := match name with [] => number num | _ => name end in
              let inf := mkInfo name (i_size (a_info a)) (i_mtime (a_info a)) 2 in
              match r with
              | Some (c, _) => Ret (mkMail m (Some c) num inf, Some inf)
              | None => Ret (mkMail (mkMl (l_in m) (l_next m) (l_hd m) Eof) None num inf, None)
              end
          | _ => Ret (mkMail m None (a_num a) (a_info a), None)
          end
      end
  | _ => Ret (a, None)
  end.
(** calls on the current entry.  On a part that is not encoded a reset goes to the nearest position of the
    segment that was read last (SegSpec.v): other resets are not supported by its stream. *)
Definition mail_entry (a : mail) (h : list call) : out (mail * list (obs Z)) :=
  match a_cur a with
  | None => Ret (a, [])
  | Some (CSub s) => let* (s, obs) := run (sub_ops par) s h in Ret (mkMail (a_ml a) (Some (CSub s)) (a_num a) (a_info a), obs)
  | Some (CPart s) => let* (s, obs) := run_seg false (st_ops par) s view0 h in Ret (mkMail (a_ml a) (Some (CPart s)) (a_num a) (a_info a), obs)
  | Some (CB64 x) => let* (x, obs) := run (bs_ops (b64_src (st_ops par) fuel)) x h in Ret (mkMail (a_ml a) (Some (CB64 x)) (a_num a) (a_info a), obs)
  end.
(** mailinputstream.h:36-88, substreamprovider.h:67-159: MailInputStream as a SubStreamProvider; the virtual functions of this class as a record, no code of its own *)
Definition mail_provider : provider mail := mkProvider _ mail_next mail_entry (fun a => l_st (a_ml a)).
(** the same without that restriction *)
Definition mail_entry_any (a : mail) (h : list call) : out (mail * list (obs Z)) :=
  match a_cur a with
  | Some (CPart s) => let* (s, obs) := run (st_ops par) s h in Ret (mkMail (a_ml a) (Some (CPart s)) (a_num a) (a_info a), obs)
  | _ => mail_entry a h
  end.
(** mailinputstream.h:36-88, substreamprovider.h:67-159: MailInputStream as a SubStreamProvider; the virtual functions of this class as a record, no code of its own *)
Definition mail_provider_any : provider mail := mkProvider _ mail_next mail_entry_any (fun a => l_st (a_ml a)).
(** subject(), from(), ...: undecoded; contentType() *)
Definition mail_field (a : mail) (f : field) : list Z := hd_meta (l_hd (a_ml a)) f.
(** mailinputstream.h:36-88: contentType() *)
Definition mail_contentType (a : mail) : list Z := hd_ct (l_hd (a_ml a)).
End MailList.
Arguments ml : clear implicits. Arguments mail : clear implicits. Arguments cur : clear implicits.
