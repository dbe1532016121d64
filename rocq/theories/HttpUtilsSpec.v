(** Specification of the HTTP helpers, written against the formats only: decimal numbers, response
    lines and responses, URIs and percent-encoding. *)
From Coq Require Import String.
From Verif Require Import Base HttpUtils.

(** ** Decimal numbers *)
Definition digits (l : list Z) : Prop := Forall (fun c => 48 <= c <= 57) l.
Definition dec_value (l : list Z) : Z := fold_left (fun a c => a * 10 + (c - 48)) l 0.
(** The values the code accepts: slightly fewer than the non-negative [int]s. *)
Definition dec_fits (v : Z) : Prop := v / 10 + v mod 10 <= 214748364.
(** The text is a number, possibly followed by a space and anything else. *)
Definition decimal (l ds : list Z) : Prop :=
  digits ds /\ exists tail, l = ds ++ tail /\ (tail = [] \/ exists t, tail = 32 :: t).

(** ** Response lines *)
Definition spaces (l : list Z) : Prop := Forall (fun c => c = 32) l.
(** Equal up to the case of the letters of [x], a lower case text. *)
Definition same_char (c x : Z) : Prop := c = x \/ (97 <= x <= 122 /\ c = x - 32).
Definition same_text (l x : list Z) : Prop := Forall2 same_char l x.

Definition status_line (l : list Z) (code : Z) : Prop :=
  exists d sp ds reason,
    l = str "HTTP/1." ++ d :: sp ++ ds ++ 32 :: reason /\ digits [d] /\ spaces sp /\ sp <> [] /\
    digits ds /\ zlen ds = 3 /\ code = dec_value ds.
Definition names_length (l : list Z) : Prop :=
  exists n r, l = n ++ r /\ same_text n (str "content-length").
Definition length_line (l : list Z) (v : Z) : Prop :=
  exists n s1 s2 ds tail,
    l = n ++ s1 ++ 58 :: s2 ++ ds ++ tail /\ same_text n (str "content-length") /\
    spaces s1 /\ spaces s2 /\ ds <> [] /\ digits ds /\ (tail = [] \/ exists t, tail = 32 :: t) /\
    v = dec_value ds /\ dec_fits v.

(** ** Responses *)
Definition no_crlf (l : list Z) : Prop := ~ In 13 l /\ ~ In 10 l.
Definition crlf : list Z := [13; 10].
Definition lines (hs : list (list Z)) : list Z := concat (map (fun l => l ++ crlf) hs).

(** Header lines with the content length they announce: the last one counts. *)
Inductive headers : list (list Z) -> Z -> Z -> Prop :=
| hs_nil v : headers [] v v
| hs_other l hs v v' : no_crlf l -> l <> [] -> zlen l <> 127 -> ~ names_length l ->
    headers hs v v' -> headers (l :: hs) v v'
| hs_length l hs v w v' : no_crlf l -> zlen l <= 126 -> length_line l w ->
    headers hs w v' -> headers (l :: hs) v v'.

(** A response header: status line, header lines and the blank line. *)
Definition response_head (hd : list Z) (code clen : Z) : Prop :=
  exists sl hs, hd = sl ++ crlf ++ lines hs ++ crlf /\
    no_crlf sl /\ zlen sl <= 126 /\ status_line sl code /\ headers hs 0 clen.

(** ** Feeding a response in pieces: stop at the first piece that completes.  Result: completed,
    context, bytes processed in total. *)
Fixpoint feed (h : hctx) (pieces : list (list Z)) (header_only : bool) (total : Z)
  : option (bool * hctx * Z) :=
  match pieces with
  | [] => Some (false, h, total)
  | p :: r =>
      match parse_http h p header_only with
      | None => None
      | Some (true, h) => Some (true, h, total + h_done h)
      | Some (false, h) => feed h r header_only (total + h_done h)
      end
  end.
(** Everything but the number of bytes processed by the last call. *)
Definition view (h : hctx) := (h_err h, h_status h, h_body h, h_clen h, (h_phase h, h_recv h, h_llen h, h_buf h)).

(** ** URIs *)
Definition scheme_text (s : list Z) (scheme port : Z) : Prop :=
  same_text s (str "http://") /\ scheme = 1 /\ port = 80 \/
  same_text s (str "https://") /\ scheme = 2 /\ port = 443.
(** [user@] *)
Definition user_part (u : list Z) : Prop := u = [] \/ exists x, u = x ++ [64] /\ ~ In 64 x.
Definition bracketed (a : list Z) : Prop := exists r, a = 91 :: r.
(** [host] and optional [:port] with the value used; an address in brackets may contain colons. *)
Definition host_port (a host : list Z) (default port : Z) : Prop :=
  (a = host /\ port = default /\
   (bracketed a -> exists x y, a = x ++ 93 :: y /\ ~ In 58 y) /\
   (~ bracketed a -> ~ In 58 a)) \/
  (exists p ds, a = host ++ 58 :: p /\ ~ In 58 p /\
   (bracketed a -> In 93 host /\ ~ In 93 p) /\
   decimal p ds /\ ds <> [] /\ port = dec_value ds /\ dec_fits port).
Definition uri_text (uri : list Z) (i : uri_info) : Prop :=
  exists s u a host path default,
    uri = s ++ u ++ a ++ path /\
    scheme_text s (u_scheme i) default /\
    (path = [] /\ u_path i = None \/
     exists r, path = 47 :: r /\ u_path i = Some (zlen (s ++ u ++ a), zlen path)) /\
    ~ In 47 (u ++ a) /\ user_part u /\ (u = [] -> ~ In 64 a) /\
    host <> [] /\ u_host i = zlen (s ++ u) /\ u_host_len i = zlen host /\
    host_port a host default (u_port i).

(** A scheme and nothing else *)
Definition bare_scheme (uri : list Z) : Prop := same_text uri (str "http://") \/ same_text uri (str "https://").

(** ** Percent-encoding (RFC 3986, section 2) *)
Definition hex_value (c : Z) : option Z :=
  if (48 <=? c) && (c <=? 57) then Some (c - 48)
  else if (65 <=? c) && (c <=? 70) then Some (c - 55) else None.
Definition plain (c : Z) : bool := existsb (Z.eqb c)
  (str "ABCDEFGHIJKLMNOPQRSTUVWXYZabcdefghijklmnopqrstuvwxyz0123456789-_.~").
Fixpoint pct_decode (l : list Z) : option (list Z) :=
  match l with
  | [] => Some []
  | c :: r =>
      if c =? 37 then
        match r with
        | a :: b :: r =>
            match hex_value a, hex_value b, pct_decode r with
            | Some a, Some b, Some l => Some (16 * a + b :: l)
            | _, _, _ => None
            end
        | _ => None
        end
      else if plain c then match pct_decode r with Some l => Some (c :: l) | None => None end
      else None
  end.
Definition encoded_len (l : list Z) : Z :=
  fold_right (fun c n => (if plain c then 1 else 3) + n) 0 l.
