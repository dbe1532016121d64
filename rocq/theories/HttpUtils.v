(** Model of components/http/src/memfault_http_utils.c.  Characters are bytes 0..255 (no comparison
    made here depends on the sign of [char]); [int] is 32 bits wide.  [None]: a read or write
    outside the buffer, or a signed overflow. *)
From Coq Require Import String.
From Verif Require Import Base.

(** memfault_http_utils.c:232-234 *)
Definition is_number (c : Z) : bool := (48 <=? c) && (c <=? 57).

(** memfault_http_utils.c:236-246; [n] is [total_len - start_offset], the list starts at
    [start_offset]. *)
Fixpoint count_spaces (l : list Z) (n : nat) {struct n} : option Z :=
  match n with
  | O => Some 0
  | S n => match l with
           | [] => None
           | c :: r => if c =? 32 then do k <- count_spaces r n; Some (1 + k) else Some 0
           end
  end.

(** memfault_http_utils.c:248-256 *)
Definition lower (c : Z) : Z :=
  let m := Z.lor c 32 in if (97 <=? m) && (m <=? 122) then m else c.
(** memfault_http_utils.c:260-270 *)
Fixpoint strcasecmp (l search : list Z) {struct search} : option bool :=
  match search with
  | [] => Some true
  | s :: sr => match l with
               | [] => None
               | c :: r => if lower c =? s then strcasecmp r sr else Some false
               end
  end.

(** memfault_http_utils.c:272-304; [n] characters may be read.  Result [None] inside: -1;
    otherwise the number of characters and the value. *)
Fixpoint dec_loop (l : list Z) (n : nat) (idx result : Z) {struct n} : option (option (Z * Z)) :=
  match n with
  | O => Some (Some (s32 idx, result))
  | S n =>
      match l with
      | [] => None
      | c :: r =>
          if c =? 32 then Some (Some (s32 idx, result))                    (* :277 *)
          else if negb (is_number c) then Some None                        (* :281 *)
          else
            let digit := c - 48 in
            if 214748364 <? result + digit then Some None                  (* :295; INT_MAX / 10 *)
            else let v := result * 10 + digit in                           (* :299 *)
                 if 2147483647 <? v then None else dec_loop r n (idx + 1) v
      end
  end.
Definition str_to_dec (l : list Z) (n : Z) : option (option (Z * Z)) := dec_loop l (Z.to_nat n) 0 0.

(** ** The response parser *)
(** include/memfault/http/utils.h:95-118; [h_body]: the contents of http_body once it is set. *)
Record hctx := mk_h {
  h_err : Z; h_status : Z; h_body : option (list Z); h_done : Z; h_clen : Z;
  h_phase : Z; h_recv : Z; h_llen : Z; h_buf : list Z }.
Definition h_init : hctx := mk_h 0 0 None 0 0 0 0 0 (fill 128 0).

Definition hset_err (h : hctx) (e : Z) := mk_h e (h_status h) (h_body h) (h_done h) (h_clen h) (h_phase h) (h_recv h) (h_llen h) (h_buf h).
Definition hset_status (h : hctx) (v : Z) := mk_h (h_err h) v (h_body h) (h_done h) (h_clen h) (h_phase h) (h_recv h) (h_llen h) (h_buf h).
Definition hset_body (h : hctx) (v : list Z) := mk_h (h_err h) (h_status h) (Some v) (h_done h) (h_clen h) (h_phase h) (h_recv h) (h_llen h) (h_buf h).
Definition hset_done (h : hctx) (v : Z) := mk_h (h_err h) (h_status h) (h_body h) v (h_clen h) (h_phase h) (h_recv h) (h_llen h) (h_buf h).
Definition hset_clen (h : hctx) (v : Z) := mk_h (h_err h) (h_status h) (h_body h) (h_done h) v (h_phase h) (h_recv h) (h_llen h) (h_buf h).
Definition hset_phase (h : hctx) (v : Z) := mk_h (h_err h) (h_status h) (h_body h) (h_done h) (h_clen h) v (h_recv h) (h_llen h) (h_buf h).
Definition hset_recv (h : hctx) (v : Z) := mk_h (h_err h) (h_status h) (h_body h) (h_done h) (h_clen h) (h_phase h) v (h_llen h) (h_buf h).
Definition hset_line (h : hctx) (n : Z) (b : list Z) := mk_h (h_err h) (h_status h) (h_body h) (h_done h) (h_clen h) (h_phase h) (h_recv h) n b.

(** memfault_http_utils.c:310-335; the value is only stored when one is parsed. *)
Definition parse_header (line : list Z) (len : Z) : option (bool * option Z) :=
  if len <? 14 then Some (true, None)                                      (* :313 *)
  else
    do same <- strcasecmp line (str "content-length");
    if negb same then Some (true, None)                                    (* :318 *)
    else
      do k <- count_spaces (drop 14 line) (Z.to_nat (len - 14));           (* :324 *)
      let idx := 14 + k in
      do c <- get line idx;
      if negb (c =? 58) then Some (false, None)                            (* :325 *)
      else
        let idx := idx + 1 in
        do k <- count_spaces (drop idx line) (Z.to_nat (len - idx));       (* :330 *)
        let idx := idx + k in
        do r <- str_to_dec (drop idx line) (u32 (len - idx));              (* :332 *)
        match r with
        | None => Some (false, None)
        | Some (n, v) => Some (0 <? n, Some v)                             (* :334 *)
        end.

(** memfault_http_utils.c:337-374 *)
Definition parse_status_line (line : list Z) (len : Z) : option (bool * option Z) :=
  if len <? 7 then Some (false, None)                                      (* :340 *)
  else
    do v <- read_at line 0 7;
    if negb (if list_eq_dec Z.eq_dec v (str "HTTP/1.") then true else false) then Some (false, None) (* :343 *)
    else if len <? 8 then Some (false, None)                               (* :347 *)
    else
      do c <- get line 7;
      if negb (is_number c) then Some (false, None)                        (* :352 *)
      else
        do k <- count_spaces (drop 8 line) (Z.to_nat (len - 8));           (* :358 *)
        if k =? 0 then Some (false, None)
        else
          let idx := 8 + k in
          if len <? idx + 3 then Some (false, None)                        (* :366 *)
          else
            do r <- str_to_dec (drop idx line) (idx + 3);                  (* :370: up to idx + 3 characters *)
            match r with
            | None => Some (false, None)
            | Some (n, v) => Some (n =? 3, Some v)                         (* :373 *)
            end.

(** memfault_http_utils.c:376-378 *)
Definition is_cr_lf (buf : list Z) (i : Z) : option bool :=
  do a <- get buf i; if negb (a =? 13) then Some false else do b <- get buf (i + 1); Some (b =? 10).

(** memfault_http_utils.c:441-465, at the end of a line of [len] characters; [true]: return true. *)
Definition http_line (h : hctx) (len : Z) : option (bool * hctx) :=
  if h_phase h =? 0 then
    do r <- parse_status_line (h_buf h) len;
    let (ok, v) := r in
    let h := match v with Some v => hset_status h v | None => h end in
    if negb ok then Some (true, hset_err h 1)                      (* :444 *)
    else Some (false, hset_phase h 1)
  else
    do r <- parse_header (h_buf h) len;
    let (ok, v) := r in
    let h := match v with Some v => hset_clen h v | None => h end in
    if negb ok then Some (true, hset_err h 2)                      (* :450 *)
    else if negb (len =? 0) then Some (false, h)                   (* :455 *)
    else if h_clen h =? 0 then Some (true, h)                      (* :459 *)
    else Some (false, hset_phase h 2).

(** The body of the loop of memfault_http_utils.c:386-466 for one character: [true]: return true. *)
Definition http_byte (h : hctx) (c : Z) (header_only : bool) : option (bool * hctx) :=
  if h_phase h =? 2 then
    if header_only then Some (true, h)                                     (* :389 *)
    else if 2147483647 <=? h_recv h then None
    else
      let h := hset_recv h (h_recv h + 1) in                               (* :394 *)
      do h <- (if h_llen h <? 127 then                                     (* :396 *)
                 do b <- put (h_buf h) (h_llen h) c; Some (hset_line h (h_llen h + 1) b)
               else Some h);
      if negb (h_recv h =? h_clen h) then Some (false, h)                  (* :401 *)
      else
        do b <- put (h_buf h) (h_llen h) 0;                                (* :405 *)
        let h := hset_line h (h_llen h) b in
        Some (true, hset_done (hset_body h (take (h_llen h) b)) (h_done h + 1))
  else
    let too_long := 128 <=? h_llen h in
    if too_long && negb (h_phase h =? 1) then Some (true, hset_err h 3)    (* :425 *)
    else
      do h <- (if too_long then
                 if c =? 13 then do b <- put (h_buf h) 126 c; Some (hset_line h (h_llen h) b)   (* :418 *)
                 else if c =? 10 then do b <- put (h_buf h) 127 c; Some (hset_line h (h_llen h) b)
                 else Some h
               else do b <- put (h_buf h) (h_llen h) c; Some (hset_line h (h_llen h + 1) b));   (* :429 *)
      if h_llen h <? 2 then Some (false, h)                                (* :433 *)
      else
        let len := h_llen h - 2 in
        do e <- is_cr_lf (h_buf h) len;
        if negb e then Some (false, h)                                     (* :438 *)
        else
          do b <- put (h_buf h) len 0;
          let h := hset_line h 0 b in                                      (* :439-440 *)
          http_line h len.

(** memfault_http_utils.c:380-468 *)
Fixpoint http_loop (h : hctx) (data : list Z) (header_only : bool) : option (bool * hctx) :=
  match data with
  | [] => Some (false, h)
  | c :: r =>
      do x <- http_byte h c header_only;
      let (fin, h) := x in
      if fin then Some (true, h) else http_loop (hset_done h (h_done h + 1)) r header_only
  end.
Definition parse_http (h : hctx) (data : list Z) (header_only : bool) : option (bool * hctx) :=
  http_loop (hset_done h 0) data header_only.

(** ** URIs *)
(** memfault_http_utils.c:482-492 *)
Fixpoint find_first (l : list Z) (n : nat) (c : Z) {struct n} : option (option Z) :=
  match n with
  | O => Some None
  | S n => match l with
           | [] => None
           | x :: r => if x =? c then Some (Some 0)
                       else do o <- find_first r n c; Some (match o with Some k => Some (1 + k) | None => None end)
           end
  end.
(** memfault_http_utils.c:494-504; from the [n]th character down. *)
Fixpoint find_last (l : list Z) (n : nat) (c : Z) : option (option Z) :=
  match n with
  | O => Some None
  | S n => do x <- get l (Z.of_nat n);
           if x =? c then Some (Some (Z.of_nat n)) else find_last l n c
  end.
(** memfault_http_utils.c:506-513 *)
Definition startswith (m uri : list Z) (len : Z) : option bool :=
  if len <? zlen m then Some false else strcasecmp uri m.

(** utils.h: sMemfaultUriInfo; pointers are offsets into the URI. *)
Record uri_info := mk_uri { u_scheme : Z; u_host : Z; u_host_len : Z; u_port : Z; u_path : option (Z * Z) }.

(** memfault_http_utils.c:515-538: bytes consumed, scheme (0 unrecognized, 1 http, 2 https), port *)
Definition uri_scheme (uri : list Z) (len : Z) : option (Z * Z * Z) :=
  do b <- startswith (str "https://") uri len;
  if b then Some (8, 2, 443)
  else do b <- startswith (str "http://") uri len;
       if b then Some (7, 1, 80) else Some (0, 0, 0).

(** memfault_http_utils.c:540-609 *)
Definition parse_uri (uri : list Z) (len : Z) : option (option uri_info) :=
  do s <- uri_scheme uri len;
  let '(consumed, scheme, port) := s in
  if consumed =? 0 then Some None
  else
    let hlen := len - consumed in
    let auth := consumed in
    do o <- find_first (drop auth uri) (Z.to_nat hlen) 47;                 (* :556 *)
    let '(path, hlen) := match o with Some off => (Some (auth + off, hlen - off), off) | None => (None, hlen) end in
    do o <- find_first (drop auth uri) (Z.to_nat hlen) 64;                 (* :562 *)
    match (match o with
           | Some off => if hlen =? off + 1 then None else Some (auth + (off + 1), hlen - (off + 1))
           | None => Some (auth, hlen)
           end) with
    | None => Some None
    | Some (auth, hlen) =>
        do c <- get uri auth;                                              (* :574 *)
        do o <- (if c =? 91 then find_last (drop auth uri) (Z.to_nat hlen) 93 else Some (Some 0));
        match o with
        | None => Some None                                                (* :576 *)
        | Some search =>
            do o <- find_last (drop auth uri) (Z.to_nat hlen) 58;          (* :581 *)
            match o with
            | Some off =>
                if search <=? off then
                  do r <- str_to_dec (drop (auth + (off + 1)) uri) (hlen - (off + 1)); (* :587 *)
                  match r with
                  | None => Some None
                  | Some (n, v) =>
                      if n <=? 0 then Some None                            (* :588 *)
                      else if off =? 0 then Some None                      (* :596 *)
                      else Some (Some (mk_uri scheme auth off v path))
                  end
                else if hlen =? 0 then Some None else Some (Some (mk_uri scheme auth hlen port path))
            | None => if hlen =? 0 then Some None else Some (Some (mk_uri scheme auth hlen port path))
            end
        end
    end.

(** ** URL encoding *)
(** memfault_http_utils.c:653-655; [isalnum] in the C locale *)
Definition unreserved (c : Z) : bool :=
  (48 <=? c) && (c <=? 57) || (65 <=? c) && (c <=? 90) || (97 <=? c) && (c <=? 122)
  || (c =? 45) || (c =? 95) || (c =? 46) || (c =? 126).
(** memfault_http_utils.c:657-664 *)
Definition needs_escape (l : list Z) : bool := existsb (fun c => negb (unreserved c)) l.
(** The digits of printf's %X *)
Definition hex_digit (v : Z) : Z := if v <? 10 then 48 + v else 55 + v.
(** memfault_http_utils.c:672-697; [pos] is the output pointer, [room] outbuf_len. *)
Fixpoint urlencode_loop (inb out : list Z) (pos room : Z) : option (Z * list Z) :=
  match inb with
  | [] => do out <- put out pos 0; Some (0, out)
  | c :: r =>
      if room <? 2 then Some (-1, out)
      else if unreserved c then
        do out <- put out pos c; urlencode_loop r out (pos + 1) (room - 1)
      else if room <? 4 then Some (-1, out)
      else do out <- splice out pos [37; hex_digit (c / 16); hex_digit (c mod 16); 0];
           urlencode_loop r out (pos + 3) (room - 3)
  end.
(** memfault_http_utils.c:666-698, non-null pointers *)
Definition urlencode (inb out : list Z) : option (Z * list Z) :=
  if (zlen inb =? 0) || (zlen out =? 0) then Some (-1, out) else urlencode_loop inb out 0 (zlen out).
