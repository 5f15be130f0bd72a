(** Model of /repo/lib/compat.cpp: the functions for systems that do not have them.
    A pointer to chars is the list of the chars that are accessible from it on: a string [s] in memory is [s ++ 0 :: rest];
    a read beyond the list is [UB].  Chars are signed; the locale is "C".  mkstemp (Windows only) is not modelled. *)
From Verif Require Import Base CompatSpec.

(** compat.cpp:53-67 strcasecmp; the test "sa == sb" is [same].  Every round moves both pointers on. *)
Fixpoint casecmp_loop (sa sb : list Z) : out Z :=
  match sa, sb with
  | a :: sa', b :: sb' =>
      let ca := lower a in let cb := lower b in
      if negb (ca =? 0) && (ca =? cb) then casecmp_loop sa' sb' else Ret (ca - cb)
  | _, _ => UB
  end.
(** compat.cpp:53-67 *)
Definition strcasecmp_ (same : bool) (sa sb : list Z) : out Z := if same then Ret 0 else casecmp_loop sa sb.

(** compat.cpp:71-88 strncasecmp; [last] are ca and cb, which are not initialised before the first round *)
Fixpoint ncasecmp_loop (n : nat) (last : option (Z * Z)) (sa sb : list Z) (l : Z) (i : Z) : out Z :=
  if l <=? i then match last with Some (ca, cb) => Ret (ca - cb) | None => UB end
  else match n with
  | O => Hang
  | S n =>
      match sa, sb with
      | a :: sa', b :: sb' =>
          let ca := lower a in let cb := lower b in
          if negb (ca =? 0) && (ca =? cb) then ncasecmp_loop n (Some (ca, cb)) sa' sb' l (i + 1) else Ret (ca - cb)
      | _, _ => UB
      end
  end.
(** compat.cpp:71-88 *)
Definition strncasecmp_ (same : bool) (sa sb : list Z) (l : Z) : out Z :=
  if same then Ret 0 else ncasecmp_loop (Z.to_nat l) None sa sb l 0.

(** strdup: the string at a pointer *)
Fixpoint c_string (p : list Z) : out (list Z) :=
  match p with
  | [] => UB
  | c :: p' => if c =? 0 then Ret [] else let* s := c_string p' in Ret (c :: s)
  end.
(** strstr on strings: the offset of the first occurrence *)
Fixpoint begins (little big : list Z) : bool :=
  match little, big with
  | [], _ => true
  | x :: l, y :: b => (x =? y) && begins l b
  | _ :: _, [] => false
  end.
(** C library: strstr, called at compat.cpp:111 *)
Fixpoint strstr_at (big little : list Z) (i : Z) : option Z :=
  if begins little big then Some i
  else match big with [] => None | _ :: b => strstr_at b little (i + 1) end.
(** compat.cpp:92-121 strcasestr: the offset of the result in [big].  [lwr]: HAVE_STRLWR; without it tolower is called and
    its result is not used (compat.cpp:98-109). *)
Definition strcasestr_ (lwr : bool) (big little : list Z) : out (option Z) :=
  let* tmp1 := c_string big in
  let* tmp2 := c_string little in
  let tmp1 := if lwr then map lower tmp1 else tmp1 in
  let tmp2 := if lwr then map lower tmp2 else tmp2 in
  Ret (strstr_at tmp1 tmp2 0).

(** compat.cpp:125-130 isblank *)
Definition isblank_ (c : Z) : bool := (c =? 32) || (c =? 9) || (c =? 10) || (c =? 13).

(** ** compat.cpp:31-49 setenv *)
(** the environment: "name=value" strings, each a block of the heap by number; the heap: contents, or freed *)
Record sys := mkSys { e_heap : list (option (list Z)); e_env : list nat }.
(** not code: the contents of a block of the heap; undefined if it was freed (used by compat.cpp:31-49) *)
Definition block (s : sys) (i : nat) : out (list Z) := match nth_error (e_heap s) i with Some (Some b) => Ret b | _ => UB end.
(** the block with the variable [name]: the first that starts with name= *)
Fixpoint find_env (s : sys) (name : list Z) (env : list nat) : out (option (list Z)) :=
  match env with
  | [] => Ret None
  | i :: env => let* b := block s i in
                if begins (name ++ [61]) b then Ret (Some (skipn (length name + 1) b)) else find_env s name env
  end.
(** C library: getenv, called at compat.cpp:36, and what a program sees after compat.cpp:31-49 *)
Definition getenv (s : sys) (name : list Z) : out (option (list Z)) := find_env s name (e_env s).
(** name up to '=' *)
Fixpoint upto_eq (b : list Z) : list Z := match b with [] => [] | c :: b => if c =? 61 then [] else c :: upto_eq b end.
(** C library: putenv (called at compat.cpp:46) removes the variable with the same name *)
Fixpoint drop_env (s : sys) (name : list Z) (env : list nat) : out (list nat) :=
  match env with
  | [] => Ret []
  | i :: env => let* b := block s i in let* r := drop_env s name env in
                Ret (if begins (name ++ [61]) b then r else i :: r)
  end.
(** putenv of block [i]: the environment gets the block itself (POSIX), or a copy of it ([copies], as on Windows) *)
Definition putenv (copies : bool) (s : sys) (i : nat) : out sys :=
  let* b := block s i in
  let* env := drop_env s (upto_eq b) (e_env s) in
  if copies then Ret (mkSys (e_heap s ++ [Some b]) (length (e_heap s) :: env))
  else Ret (mkSys (e_heap s) (i :: env)).
(** not code: assignment to a list element *)
Fixpoint set_nth {A} (l : list A) (i : nat) (x : A) : list A :=
  match l, i with [], _ => [] | _ :: l, O => x :: l | y :: l, S i => y :: set_nth l i x end.
(** C library: free, called at compat.cpp:47 *)
Definition free (s : sys) (i : nat) : sys := mkSys (set_nth (e_heap s) i None) (e_env s).
(** malloc and putenv succeed *)
Definition setenv (copies : bool) (s : sys) (name value : list Z) (overwrite : bool) : out (sys * Z) :=
  let* old := if overwrite then Ret None else getenv s name in
  match old with
  | Some _ => Ret (s, 0)
  | None =>
      let a := length (e_heap s) in
      let s := mkSys (e_heap s ++ [Some (name ++ [61] ++ value)]) (e_env s) in
      let* s := putenv copies s a in
      Ret (free s a, 0)
  end.
