(** Model of /repo/lib/kmpsearcher.cpp and /repo/include/strigi/kmpsearcher.h.
    Characters are bytes 0..255 (the code only compares them and converts them
    to unsigned char).  Pointers are offsets; forming a pointer outside of the
    haystack is not counted as undefined, looking through it is. *)
From Verif Require Import Base.

(** int32_t memory: [None] is a never written cell *)
Definition rd (t : list (option Z)) (i : Z) : out Z :=
  match zget t i with Some (Some z) => Ret z | _ => UB end.
(** not code: writing a cell of a table (kmpsearcher.cpp:32-92) *)
Definition wr (t : list (option Z)) (i z : Z) : out (list (option Z)) :=
  if (0 <=? i) && (i <? zlen t) then Ret (splice t i [Some z]) else UB.
(** char memory *)
Definition rdc (x : list Z) (i : Z) : out Z :=
  match zget x i with Some z => Ret z | None => UB end.

(** kmpsearcher.cpp:32-42; [t] is the table, bmBc its first 256 cells *)
Fixpoint bc_init (n : nat) (i : Z) (t : list (option Z)) : out (list (option Z)) :=
  match n with
  | O => Ret t
  | S k => let* t' := wr t i 1 in bc_init k (i + 1) t'
  end.
(** kmpsearcher.cpp:39-41: the second loop of preBmBc *)
Fixpoint bc_fill (n : nat) (i : Z) (x : list Z) (t : list (option Z)) : out (list (option Z)) :=
  match n with
  | O => Ret t
  | S k => let* c := rdc x i in let* t' := wr t c (- i) in bc_fill k (i + 1) x t'
  end.
(** kmpsearcher.cpp:32-42 *)
Definition preBmBc (x : list Z) (m : Z) (t : list (option Z)) : out (list (option Z)) :=
  let* t1 := bc_init 256 0 t in bc_fill (Z.to_nat (m - 1)) 0 x t1.

(** kmpsearcher.cpp:57-59, the while loop; it runs at most g+1 times *)
Fixpoint suf_while (fuel : nat) (x : list Z) (m f g : Z) : out Z :=
  if 0 <=? g then
    let* a := rdc x g in
    let* b := rdc x (g + m - 1 - f) in
    if a =? b then match fuel with O => Hang | S k => suf_while k x m f (g - 1) end
    else Ret g
  else Ret g.
(** kmpsearcher.cpp:50-63; [n] = i+1 *)
Fixpoint suf_loop (n : nat) (x : list Z) (m f g : Z) (suff : list (option Z)) : out (list (option Z)) :=
  match n with
  | O => Ret suff
  | S k =>
      let i := Z.of_nat k in
      let* reuse := if g <? i then let* s := rd suff (i + m - 1 - f) in Ret (if s <? i - g then Some s else None) else Ret None in
      match reuse with
      | Some s => let* suff' := wr suff i s in suf_loop k x m f g suff'
      | None =>
          let g1 := if i <? g then i else g in
          let* g2 := suf_while (Z.to_nat (g1 + 1)) x m i g1 in
          let* suff' := wr suff i (i - g2) in
          suf_loop k x m i g2 suff'
      end
  end.
(** kmpsearcher.cpp:43-64 *)
Definition suffixes (x : list Z) (m : Z) (suff : list (option Z)) : out (list (option Z)) :=
  let* suff1 := wr suff (m - 1) m in suf_loop (Z.to_nat (m - 1)) x m 0 (m - 1) suff1.

(** kmpsearcher.cpp:74-76; bmGs is [t] from cell [o] on *)
Fixpoint gs_init (n : nat) (o i m : Z) (t : list (option Z)) : out (list (option Z)) :=
  match n with
  | O => Ret t
  | S k => let* t' := wr t (o + i) m in gs_init k o (i + 1) m t'
  end.
(** kmpsearcher.cpp:80-84 *)
Fixpoint gs_inner (n : nat) (o j m i : Z) (t : list (option Z)) : out (list (option Z) * Z) :=
  match n with
  | O => Ret (t, j)
  | S k =>
      if j <? m - 1 - i then
        let* b := rd t (o + j) in
        let* t' := if b =? m then wr t (o + j) (m - 1 - i) else Ret t in
        gs_inner k o (j + 1) m i t'
      else Ret (t, j)
  end.
(** kmpsearcher.cpp:78-86; [n] = i+1 *)
Fixpoint gs_borders (n : nat) (o j m : Z) (suff t : list (option Z)) : out (list (option Z)) :=
  match n with
  | O => Ret t
  | S k =>
      let i := Z.of_nat k in
      let* s := rd suff i in
      if s =? i + 1 then
        let* (t', j') := gs_inner (Z.to_nat (m - 1 - i - j)) o j m i t in gs_borders k o j' m suff t'
      else gs_borders k o j m suff t
  end.
(** kmpsearcher.cpp:87-89 *)
Fixpoint gs_strong (n : nat) (o i m : Z) (suff t : list (option Z)) : out (list (option Z)) :=
  match n with
  | O => Ret t
  | S k => let* s := rd suff i in let* t' := wr t (o + (m - 1 - s)) (m - 1 - i) in gs_strong k o (i + 1) m suff t'
  end.
(** kmpsearcher.cpp:65-92 *)
Definition preBmGs (x : list Z) (m o : Z) (t : list (option Z)) : out (list (option Z)) :=
  if m <? 0 then UB else
  let* suff := suffixes x m (repeat None (Z.to_nat m)) in
  let* t1 := gs_init (Z.to_nat m) o 0 m t in
  let* t2 := gs_borders (Z.to_nat m) o 0 m suff t1 in
  gs_strong (Z.to_nat (m - 1)) o 0 m suff t2.

(** kmpsearcher.h:35-38; [k_table = None] is the null pointer *)
Record searcher := mkK { k_query : list Z; k_table : option (list (option Z)); k_len : Z; k_maxlen : Z }.
(** kmpsearcher.h:40 (len and maxlen are left uninitialised; they are not read before setQuery) *)
Definition kmp_null : searcher := mkK [] None 0 0.
(** kmpsearcher.cpp:96-114; realloc keeps the old cells *)
Definition setQuery (k : searcher) (q : list Z) : out searcher :=
  let len := zlen q in
  if negb (i32 len) then UB else
  let* t257 := chk32 (257 + len) in
  let* _ := chk32 (4 * t257) in
  let '(t, maxlen) :=
    match k_table k with
    | Some t => if k_maxlen k <? len then (t ++ repeat None (Z.to_nat (257 + len - zlen t)), len) else (t, k_maxlen k)
    | None => (repeat None (Z.to_nat (257 + len)), len)
    end in
  let* t1 := preBmGs q len 256 t in
  let* t2 := preBmBc q len t1 in
  Ret (mkK q (Some t2) len maxlen).

(** kmpsearcher.cpp:132-137, the scan from the right; at most i+1 rounds *)
Fixpoint scan (fuel : nat) (x hay : list Z) (j len shift u i : Z) : out Z :=
  if 0 <=? i then
    let* a := rdc x i in
    let* b := rdc hay (j + i) in
    if a =? b then
      match fuel with
      | O => Hang
      | S k => let i1 := i - 1 in
               scan k x hay j len shift u (if negb (u =? 0) && (i1 =? len - 1 - shift) then i1 - u else i1)
      end
    else Ret i
  else Ret i.
(** kmpsearcher.cpp:130-158; the result is (jp, i) when the loop is left.  Every round
    that continues moves jp by shift; [fuel] = number of alignments + 1 *)
Fixpoint turbo (fuel : nat) (x : list Z) (t : list (option Z)) (hay : list Z) (len j i shift u : Z) : out (Z * Z) :=
  if j <=? zlen hay - len then
    match fuel with
    | O => Hang
    | S k =>
        let* i := scan (Z.to_nat len) x hay j len shift u (len - 1) in
        if i <? 0 then Ret (j, i)
        else
          let v := len - 1 - i in
          let turboShift := u - v in
          let* c := rdc hay (j + i) in
          let* b := rd t c in
          let bcShift := b + i in
          let* gs := rd t (256 + i) in
          let shift := Z.max (Z.max turboShift bcShift) gs in
          let '(shift, u) :=
            if shift =? gs then (shift, Z.min (len - shift) v)
            else (if turboShift <? bcShift then Z.max shift (u + 1) else shift, 0) in
          turbo k x t hay len (j + shift) i shift u
    end
  else Ret (j, i).
(** kmpsearcher.cpp:115-173; [None]: the null pointer, [Some j]: haystack + j *)
Definition search (k : searcher) (hay : list Z) : out (option Z) :=
  match k_table k with
  | None => Ret None
  | Some t =>
      let* (j, i) := turbo (Z.to_nat (zlen hay - k_len k + 2)) (k_query k) t hay (k_len k) 0 0 (k_len k) 0 in
      Ret (if i =? -1 then Some j else None)
  end.
(** kmpsearcher.h:34-59: KmpSearcher(query).search(haystack), i.e. kmpsearcher.cpp from setQuery to the end *)
Definition kmp_search (q hay : list Z) : out (option Z) :=
  let* k := setQuery kmp_null q in search k hay.
