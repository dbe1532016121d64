(** Model of components/demo/src/memfault_demo_shell.c: the demo shell.

    What happens is the list of events: characters given to send_char and handlers called, with the
    number of the command in the table (g_memfault_shell_commands followed by the extension commands) and
    the arguments.  Arguments are pointers into the receive buffer; the strings are what is there when the
    handler is called.  [None]: access outside the buffer.  Handlers do not call back into the shell. *)
From Coq Require Import String.
From Verif Require Import Base.

Inductive sh_event := SOut (c : Z) | SCall (command : Z) (args : list (list Z)).

(** memfault_demo_shell.c:41-52 *)
Record shell := mk_sh { sh_on : bool; sh_n : Z; sh_ignore : Z; sh_buf : list Z }.

Section S.
(** MEMFAULT_DEMO_SHELL_RX_BUFFER_SIZE; the names in the tables *)
Variables (size : Z) (names : list (list Z)).

(** memfault_demo_shell.c:64-75 *)
Definition sh_echo (c : Z) : list sh_event :=
  if c =? 10 then [SOut 13; SOut 10] else if c =? 8 then [SOut 8; SOut 32; SOut 8] else [SOut c].
(** memfault_demo_shell.c:90-94 *)
Definition sh_echo_str (l : list Z) : list sh_event := flat_map sh_echo l.
(** memfault_demo_shell.c:20 *)
Definition sh_prompt : list Z := str "mflt> ".
(** memfault_demo_shell.c:85-88 *)
Definition sh_reset (s : shell) : shell := mk_sh (sh_on s) 0 (sh_ignore s) (fill size 0).

(** memfault_demo_shell.c:100-107 *)
Fixpoint sh_find (i : Z) (l : list (list Z)) (name : list Z) : option Z :=
  match l with
  | [] => None
  | x :: l => if list_eq_dec Z.eq_dec x name then Some i else sh_find (i + 1) l name
  end.

(** The string at a pointer into the buffer. *)
Fixpoint sh_cstr (l : list Z) : option (list Z) :=
  match l with
  | [] => None
  | c :: l => if c =? 0 then Some [] else do r <- sh_cstr l; Some (c :: r)
  end.
Fixpoint sh_strings (buf : list Z) (argv : list Z) : option (list (list Z)) :=
  match argv with
  | [] => Some []
  | a :: argv => do x <- sh_cstr (drop a buf); do r <- sh_strings buf argv; Some (x :: r)
  end.

(** memfault_demo_shell.c:119-130; [n] = rx_size - i rounds left *)
Fixpoint sh_split (n : nat) (i rx : Z) (buf argv : list Z) (next : option Z) {struct n} : option (list Z * list Z) :=
  match n with
  | O => Some (buf, argv)
  | S n =>
      if 16 <=? zlen argv then Some (buf, argv)
      else
        do c <- get buf i;
        if (c =? 32) || (c =? 10) || (i =? rx - 1)
        then do buf <- put buf i 0;
             match next with
             | Some a => sh_split n (i + 1) rx buf (argv ++ [a]) None
             | None => sh_split n (i + 1) rx buf argv None
             end
        else sh_split n (i + 1) rx buf argv (match next with Some a => Some a | None => Some i end)
  end.

(** memfault_demo_shell.c:109-148 *)
Definition sh_process (s : shell) : option (shell * list sh_event) :=
  do last <- get (sh_buf s) (sh_n s - 1);
  if negb (last =? 10) && negb (size <=? sh_n s) then Some (s, [])
  else
    do x <- sh_split (Z.to_nat (sh_n s)) 0 (sh_n s) (sh_buf s) [] None;
    let (buf, argv) := (x : list Z * list Z) in
    do args <- sh_strings buf argv;
    Some (sh_reset s,
      (if sh_n s =? size then sh_echo 10 else []) ++
      match args with
      | [] => []
      | name :: _ => match sh_find 0 names name with
                     | None => sh_echo_str (str "Unknown command: ") ++ sh_echo_str name ++ sh_echo 10
                               ++ sh_echo_str (str "Type 'help' to list all commands") ++ sh_echo 10
                     | Some k => [SCall k args]
                     end
      end ++ sh_echo_str sh_prompt).

(** memfault_demo_shell.c:150-155 *)
Definition sh_boot : shell * list sh_event :=
  (mk_sh true 0 0 (fill size 0), sh_echo 10 ++ sh_echo_str sh_prompt).
(** Before (.bss) *)
Definition sh_off : shell := mk_sh false 0 0 (fill size 0).

(** memfault_demo_shell.c:167-184 *)
Definition sh_ignored (c : Z) (s : shell) : bool * shell :=
  if negb (sh_ignore s =? 0) then (c =? sh_ignore s, s)
  else (false, mk_sh (sh_on s) (sh_n s) (if c =? 13 then 10 else if c =? 10 then 13 else 0) (sh_buf s)).

(** memfault_demo_shell.c:186-211 *)
Definition sh_receive (c : Z) (s : shell) : option (shell * list sh_event) :=
  let (ign, s) := sh_ignored c s in
  if ign || (size <=? sh_n s) || negb (sh_on s) then Some (s, [])
  else if (c =? 8) && (sh_n s =? 0) then Some (s, [])
  else
    let c := if c =? 13 then 10 else c in
    if c =? 8
    then do b <- put (sh_buf s) (sh_n s - 1) 0;
         Some (mk_sh (sh_on s) (sh_n s - 1) (sh_ignore s) b, sh_echo c)
    else
      do b <- put (sh_buf s) (sh_n s) c;
      do x <- sh_process (mk_sh (sh_on s) (sh_n s + 1) (sh_ignore s) b);
      let (s, e) := (x : shell * list sh_event) in
      Some (s, sh_echo c ++ e).

Fixpoint sh_run (l : list Z) (s : shell) : option (shell * list sh_event) :=
  match l with
  | [] => Some (s, [])
  | c :: l => do x <- sh_receive c s;
              let (s, e) := (x : shell * list sh_event) in
              do y <- sh_run l s;
              let (s, e') := (y : shell * list sh_event) in
              Some (s, e ++ e')
  end.
End S.
