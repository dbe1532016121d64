(** Model of the request builders of components/http/src/memfault_http_utils.c:30-230, 611-651.  The
    write callback answers call number [i] with [ok i]; the messages passed to it are recorded. *)
From Coq Require Import String.
From Verif Require Import Base HttpUtils.

Definition s_crlf : list Z := [13; 10].
(** A chain of callback calls that stops at the first refusal. *)
Fixpoint writes (ok : nat -> bool) (sent : list (list Z)) (ms : list (list Z)) : bool * list (list Z) :=
  match ms with
  | [] => (true, sent)
  | m :: r => if ok (List.length sent) then writes ok (sent ++ [m]) r else (false, sent ++ [m])
  end.

(** memfault_http_utils.c:47-61 *)
Definition host_hdr (host : list Z) := [str "Host:"; host; s_crlf].
(** memfault_http_utils.c:62-66, include/memfault/version.h:24 *)
Definition user_agent_hdr := [str "User-Agent:MemfaultSDK/" ++ str "1.23.1" ++ s_crlf].
(** memfault_http_utils.c:68-83 *)
Definition project_key_hdr (key : list Z) := [str "Memfault-Project-Key:"; key; s_crlf].

(** printf's %d *)
Fixpoint print_dec (fuel : nat) (v : Z) : list Z :=
  match fuel with
  | O => []
  | S f => if v <? 10 then [48 + v] else print_dec f (v / 10) ++ [48 + v mod 10]
  end.
Definition print_int (v : Z) : list Z := if v <? 0 then 45 :: print_dec 10 (- v) else print_dec 10 v.

(** memfault_http_utils.c:30-38: a message that does not fit the buffer of 100 is not sent. *)
Definition write_msg (ok : nat -> bool) (sent : list (list Z)) (m : list Z) : bool * list (list Z) :=
  if 100 <=? zlen m then (false, sent) else writes ok sent [m].
Definition w_and (a : bool * list (list Z)) (k : list (list Z) -> bool * list (list Z)) :=
  let (b, sent) := a in if b then k sent else (false, sent).

(** memfault_http_utils.c:85-138; strings without their NUL *)
Definition start_chunk_post (ok : nat -> bool) (serial host key : list Z) (len : Z) : bool * list (list Z) :=
  w_and (write_msg ok [] (str "POST /api/v0/chunks/" ++ serial ++ str " HTTP/1.1" ++ s_crlf)) (fun sent =>
  w_and (writes ok sent (host_hdr host ++ user_agent_hdr ++ project_key_hdr key ++
                         [str "Content-Type:application/octet-stream" ++ s_crlf])) (fun sent =>
  w_and (write_msg ok sent (str "Content-Length:" ++ print_int (s32 len) ++ s_crlf)) (fun sent =>
  writes ok sent [s_crlf]))).

(** A C string in a buffer *)
Fixpoint cstr (l : list Z) : list Z := match l with [] => [] | c :: r => if c =? 0 then [] else c :: cstr r end.

(** memfault_http_utils.c:134-138, 190-208; [junk]: the contents of the uninitialized buffer of 48. *)
Fixpoint write_qparams (ok : nat -> bool) (sent : list (list Z)) (junk : list Z) (ps : list (list Z * list Z))
  : option (bool * list (list Z)) :=
  match ps with
  | [] => Some (true, sent)
  | (name, value) :: r =>
      do e <- urlencode value junk;
      let (rv, buf) := e in
      if negb (rv =? 0) then Some (false, sent)
      else let (b, sent) := writes ok sent [[38]; name; [61]; cstr buf] in
           if b then write_qparams ok sent junk r else Some (false, sent)
  end.
(** memfault_http_utils.c:140-230 *)
Definition get_latest_url (ok : nat -> bool) (junk serial hwver swtype swver host key : list Z)
  : option (bool * list (list Z)) :=
  let (b, sent) := writes ok [] [str "GET /api/v0/releases/latest/url?"] in
  if negb b then Some (false, sent)
  else
    do x <- write_qparams ok sent junk
             [(str "device_serial", serial); (str "hardware_version", hwver);
              (str "software_type", swtype); (str "current_version", swver)];
    Some (w_and x (fun sent =>
      writes ok sent ([str " HTTP/1.1" ++ s_crlf] ++ host_hdr host ++ user_agent_hdr ++ project_key_hdr key ++ [s_crlf]))).

(** memfault_http_utils.c:611-651 *)
Definition get_ota_payload (ok : nat -> bool) (url : list Z) : option (bool * list (list Z)) :=
  do o <- parse_uri url (zlen url);
  match o with
  | None => Some (false, [])
  | Some i =>
      do host <- read_at url (u_host i) (u_host_len i);
      do path <- (match u_path i with Some (off, n) => read_at url off n | None => Some [47] end);
      Some (writes ok [] ([str "GET "; path; str " HTTP/1.1" ++ s_crlf] ++ host_hdr host ++ user_agent_hdr ++ [s_crlf]))
  end.
