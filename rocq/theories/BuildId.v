(** Model of components/core/src/memfault_core_utils.c: the build id and the unique version string.

    [mem]: the memory at g_memfault_build_id.storage.  [None]: access outside a buffer.
    A string is its characters without the NUL. *)
From Coq Require Import String.
From Verif Require Import Base.

(** memfault_core_utils.c:19-44 with memfault_build_id_private.h:27-34, :69-74; [Some None]: no id *)
Definition bi_read (type : Z) (mem : list Z) : option (option (list Z)) :=
  if type =? 3 then do b <- read_at mem 0 20; Some (Some b)
  else if type =? 2
  then do n <- read_at mem 0 4;
       let namesz := fold_right (fun b n => b + 256 * n) 0 n in
       do b <- read_at mem (12 + namesz) 20; Some (Some b)
  else Some None.

(** memfault_core_utils.c:46-48 *)
Definition bi_nib (v : Z) : Z := if v <? 10 then v + 48 else v - 10 + 97.

(** memfault_core_utils.c:60-64; [n] rounds left *)
Fixpoint bi_hex (n : nat) (i : Z) (id out : list Z) {struct n} : option (list Z) :=
  match n with
  | O => Some out
  | S n =>
      do c <- get id (i / 2);
      let nibble := if i mod 2 =? 0 then Z.land (Z.shiftr c 4) 15 else Z.land c 15 in
      do out <- put out i (bi_nib nibble);
      bi_hex n (i + 1) id out
  end.
(** memfault_core_utils.c:50-69 *)
Definition bi_get_string (type : Z) (mem out : list Z) (buf_len : Z) : option (bool * list Z) :=
  do id <- bi_read type mem;
  match id with
  | None => Some (false, out)
  | Some id =>
      if buf_len <? 2 then Some (false, out)
      else
        let m := Z.min (20 * 2) (buf_len - 1) in
        do out <- bi_hex (Z.to_nat m) 0 id out;
        do out <- put out m 0;
        Some (true, out)
  end.

(** memfault_core_utils.c:71-105 after the state of s_version; [max]: MEMFAULT_UNIQUE_VERSION_MAX_LEN.
    The result: whether s_version (or NULL) is returned. *)
Definition bi_version (type : Z) (mem : list Z) (max : Z) (version : option (list Z)) (sv : list Z) : option (bool * list Z) :=
  do first <- get sv 0;
  if negb (first =? 0) then Some (true, sv)
  else match version with
  | None => Some (false, sv)
  | Some v =>
      let version_len := u32 (zlen v + 1) in
      let build_id_chars := 6 + 1 in
      if u32 (version_len + build_id_chars) <=? max
      then
        do sv <- splice sv 0 (take (version_len - 1) v);
        do sv <- put sv (version_len - 1) 43;
        let n := Z.min build_id_chars (u32 (max - version_len - 1)) in
        do r <- bi_get_string type mem (drop version_len sv) n;
        let (ok, tail) := (r : bool * list Z) in
        if ok then Some (true, take version_len sv ++ tail)
        else do sv <- splice sv version_len (str "no-id" ++ [0]); Some (true, sv)
      else Some (false, sv)
  end.

(** The string at the pointer returned. *)
Fixpoint bi_cstr (l : list Z) : option (list Z) :=
  match l with [] => None | c :: l => if c =? 0 then Some [] else do r <- bi_cstr l; Some (c :: r) end.

(** Calls one after the other; memfault_get_unique_version_string (:107-109) is the call with NULL. *)
Fixpoint bi_calls (type : Z) (mem : list Z) (max : Z) (l : list (option (list Z))) (sv : list Z) : option (list (option (list Z))) :=
  match l with
  | [] => Some []
  | v :: l =>
      do x <- bi_version type mem max v sv;
      let (r, sv) := (x : bool * list Z) in
      do s <- (if r then do c <- bi_cstr sv; Some (Some c) else Some None);
      do rest <- bi_calls type mem max l sv;
      Some (s :: rest)
  end.
