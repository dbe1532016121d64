(** C41-C44, C47: the HTTP helpers. *)
From Coq Require Import String.
From Verif Require Import Base HttpUtils HttpUtilsSpec HttpUtilsProofs HttpUriProofs HttpResponseProofs
  HttpRequest HttpRequestSpec HttpRequestProofs.

Ltac lit_bytes :=
  match goal with |- bytes ?l => let l' := eval vm_compute in l in change (bytes l') end;
  repeat (constructor; [unfold is_u8; lia|]); constructor.

(** ** C41: percent-encoding *)
Theorem C41_urlencode_round_trips : forall inb out, bytes inb ->
  exists rv out', urlencode inb out = Some (rv, out') /\ zlen out' = zlen out /\
    (rv = 0 <-> inb <> [] /\ encoded_len inb + 1 <= zlen out) /\ (rv = 0 \/ rv = -1) /\
    (rv = 0 -> exists e, out' = e ++ 0 :: drop (zlen e + 1) out /\ zlen e = encoded_len inb /\
       pct_decode e = Some inb /\ Forall (fun c => plain c = true \/ c = 37) e /\
       (needs_escape inb = false <-> e = inb)).
Proof. exact urlencode_ok. Qed.
Print Assumptions C41_urlencode_round_trips.
Example C41_case : urlencode (str "a b/c") (fill 12 7) = Some (0, str "a%20b%2Fc" ++ [0; 7; 7]) /\
  urlencode (str "a b/c") (fill 9 7) = Some (-1, str "a%20b%2F" ++ [0]) /\
  pct_decode (str "a%20b%2Fc") = Some (str "a b/c") /\ encoded_len (str "a b/c") = 9.
Proof. vm_compute. auto. Qed.

(** ** C42: responses *)
(** However a response is cut into pieces, the parser stops at the same byte in the same state. *)
Theorem C42_pieces_do_not_matter : forall pieces header_only h,
  match parse_http h (concat pieces) header_only with
  | None => feed h pieces header_only 0 = None
  | Some (f, h1) => exists h2, feed h pieces header_only 0 = Some (f, h2, h_done h1) /\ view h2 = view h1
  end.
Proof.
  intros. pose proof (feed_ok pieces header_only h 0) as X. destruct (parse_http h (concat pieces) header_only) as [[f h1]|]; exact X.
Qed.
Print Assumptions C42_pieces_do_not_matter.

(** No input makes the parser leave its buffers or overflow its counters. *)
Theorem C42_any_input_is_safe : forall pieces header_only, bytes (concat pieces) -> zlen (concat pieces) < 2 ^ 31 ->
  exists r, feed h_init pieces header_only 0 = Some r.
Proof.
  intros pieces ho B L. pose proof (feed_ok pieces ho h_init 0) as X.
  destruct (http_loop_safe (concat pieces) ho B (hset_done h_init 0)) as [f [h [E _]]].
  - destruct hinv_init. constructor; easy.
  - cbn. exact L.
  - unfold parse_http in X. rewrite E in X. destruct X as [h2 [E2 _]]. eauto.
Qed.
Print Assumptions C42_any_input_is_safe.

(** A well-formed response, cut into any pieces and followed by anything. *)
Theorem C42_response_is_parsed : forall pieces hd code clen body extra,
  concat pieces = hd ++ body ++ extra -> bytes hd -> bytes body -> response_head hd code clen -> zlen body = clen ->
  exists h n, feed h_init pieces false 0 = Some (true, h, n) /\
    h_err h = 0 /\ h_status h = code /\ h_clen h = clen /\
    h_body h = (if clen =? 0 then None else Some (take 127 body)) /\
    n = zlen (hd ++ body) - (if clen =? 0 then 1 else 0).
Proof.
  intros pieces hd code clen body extra E BH BB HD CL. pose proof (feed_ok pieces false h_init 0) as X. rewrite E in X.
  destruct (response_ok hd code clen body extra BH BB HD CL) as [h [E1 [A1 [A2 [A3 [A4 A5]]]]]]. rewrite E1 in X.
  destruct X as [h2 [E2 V]]. exists h2, (0 + h_done h). split; [exact E2|]. unfold view in V. injection V as V1 V2 V3 V4 _ _ _ _.
  rewrite V1, V2, V3, V4. do 4 (split; [easy|]). lia.
Qed.
Print Assumptions C42_response_is_parsed.

(** Parsing only the header stops in front of the body. *)
Theorem C42_header_is_parsed : forall pieces hd code clen more,
  concat pieces = hd ++ more -> bytes hd -> response_head hd code clen -> more <> [] ->
  exists h n, feed h_init pieces true 0 = Some (true, h, n) /\
    h_err h = 0 /\ h_status h = code /\ h_clen h = clen /\ h_body h = None /\
    n = zlen hd - (if clen =? 0 then 1 else 0).
Proof.
  intros pieces hd code clen more E BH HD M. pose proof (feed_ok pieces true h_init 0) as X. rewrite E in X.
  destruct (header_only_ok hd code clen more BH HD M) as [h [E1 [A1 [A2 [A3 [A4 A5]]]]]]. rewrite E1 in X.
  destruct X as [h2 [E2 V]]. exists h2, (0 + h_done h). split; [exact E2|]. unfold view in V. injection V as V1 V2 V3 V4 _ _ _ _.
  rewrite V1, V2, V3, V4. do 4 (split; [easy|]). lia.
Qed.
Print Assumptions C42_header_is_parsed.

(** Malformed responses are reported. *)
Theorem C42_bad_status_line_is_reported : forall pieces sl rest,
  concat pieces = sl ++ crlf ++ rest -> bytes sl -> no_crlf sl -> (forall code, ~ status_line sl code) ->
  exists h n, feed h_init pieces false 0 = Some (true, h, n) /\ h_err h = (if zlen sl <=? 126 then 1 else 3).
Proof.
  intros pieces sl rest E B NC N. pose proof (feed_ok pieces false h_init 0) as X. rewrite E in X. unfold parse_http in X.
  destruct (Z.leb_spec (zlen sl) 126) as [L|L].
  - destruct (status_bad _ sl 0 rest false 0 0 B NC L N hst_init) as [h [E1 [A _]]]. rewrite E1 in X.
    destruct X as [h2 [E2 V]]. do 2 eexists. split; [exact E2|]. unfold view in V. injection V as V1 _ _ _ _ _ _ _. congruence.
  - destruct (feed_long_status (hset_done h_init 0) sl rest false) as [h [E1 [A _]]]; try easy; [lia|]. rewrite E1 in X.
    destruct X as [h2 [E2 V]]. do 2 eexists. split; [exact E2|]. unfold view in V. injection V as V1 _ _ _ _ _ _ _. congruence.
Qed.
Print Assumptions C42_bad_status_line_is_reported.

Theorem C42_bad_content_length_is_reported : forall pieces sl code hs v l rest,
  concat pieces = sl ++ crlf ++ lines hs ++ l ++ crlf ++ rest ->
  bytes sl -> no_crlf sl -> zlen sl <= 126 -> status_line sl code ->
  Forall bytes hs -> headers hs 0 v ->
  bytes l -> no_crlf l -> zlen l <= 126 -> names_length l -> (forall w, ~ length_line l w) ->
  exists h n, feed h_init pieces false 0 = Some (true, h, n) /\ h_err h = 2 /\ h_status h = code.
Proof.
  intros pieces sl code hs v l rest E BS NS LS S BH HS BL NC L NL N. pose proof (feed_ok pieces false h_init 0) as X. rewrite E in X. unfold parse_http in X.
  destruct (status_fed _ sl code 0 (lines hs ++ l ++ crlf ++ rest) false 0 0 BS NS LS S hst_init) as [h1 [E1 S1]].
  destruct (headers_fed hs 0 v HS BH h1 code _ (l ++ crlf ++ rest) false S1) as [h2 [E2 S2]].
  destruct (header_bad h2 l code v _ rest false NC BL L NL N S2) as [h3 [E3 [A1 [A2 _]]]].
  rewrite E1, E2, E3 in X. destruct X as [h4 [E4 V]]. do 2 eexists. split; [exact E4|].
  unfold view in V. injection V as V1 V2 _ _ _ _ _ _. split; congruence.
Qed.
Print Assumptions C42_bad_content_length_is_reported.

Definition ex_head : list Z := str "HTTP/1.1 202 Accepted" ++ crlf ++ str "Server: x" ++ crlf ++ str "CONTENT-length : 3" ++ crlf ++ crlf.
Example C42_case : response_head ex_head 202 3 /\
  (exists h, feed h_init [take 20 ex_head; drop 20 ex_head ++ str "ab"; str "cde"] false 0 = Some (true, h, zlen ex_head + 3) /\
             h_body h = Some (str "abc") /\ h_status h = 202).
Proof.
  split.
  - exists (str "HTTP/1.1 202 Accepted"), [str "Server: x"; str "CONTENT-length : 3"]. split; [reflexivity|].
    split; [split; intros H; vm_compute in H; intuition discriminate|]. split; [vm_compute; discriminate|].
    split. { exists 49, [32], (str "202"), (str "Accepted"). split; [reflexivity|].
      split; [constructor; [lia|constructor]|]. split; [constructor; [easy|constructor]|]. split; [easy|].
      split; [change (str "202") with [50; 48; 50]; repeat (constructor; [lia|]); constructor|]. easy. }
    apply hs_other; [split; intros H; vm_compute in H; intuition discriminate|easy|easy| |].
    { intros (n & r & E & S). apply (f_equal (take 1)) in E. inversion S as [|a b n' t' C S']; subst.
      vm_compute in E. injection E as <-. vm_compute in C. intuition discriminate. }
    eapply hs_length with (w := 3); [split; intros H; vm_compute in H; intuition discriminate|vm_compute; discriminate| |constructor].
    exists (str "CONTENT-length"), [32], [32], (str "3"), []. split; [reflexivity|].
    split; [repeat (apply Forall2_cons; [vm_compute; intuition discriminate|]); constructor|].
    split; [constructor; [easy|constructor]|]. split; [constructor; [easy|constructor]|]. split; [easy|].
    split; [change (str "3") with [51]; constructor; [lia|constructor]|]. split; [left; easy|]. split; [reflexivity|]. vm_compute. discriminate.
  - eexists. split; [vm_compute; reflexivity|]. vm_compute. auto.
Qed.

(** Finding: a header line of exactly 127 characters hides the end of the header. *)
Theorem C42_every_header_length_refuted :
  ~ (forall l, bytes l -> no_crlf l -> l <> [] -> ~ names_length l ->
     exists h, parse_http h_init (str "HTTP/1.1 200 OK" ++ crlf ++ l ++ crlf ++ crlf) false = Some (true, h)).
Proof.
  intros H. destruct (H (fill 127 97)) as [h E].
  - apply bytes_fill. unfold is_u8. lia.
  - split; intros I; apply repeat_spec in I; discriminate I.
  - easy.
  - intros (n & r & E & S). apply (f_equal (take 1)) in E. inversion S as [|a b n' t' C S']; subst.
    vm_compute in E. injection E as <-. vm_compute in C. intuition discriminate.
  - vm_compute in E. discriminate E.
Qed.
Print Assumptions C42_every_header_length_refuted.

(** Finding: without a body the count of processed bytes is one short. *)
Theorem C42_count_without_body_refuted :
  ~ (forall hd code, bytes hd -> response_head hd code 0 ->
     exists h, parse_http h_init hd false = Some (true, h) /\ h_done h = zlen hd).
Proof.
  intros H. set (hd := str "HTTP/1.1 200 OK" ++ crlf ++ lines [] ++ crlf).
  destruct (H hd 200) as [h [E D]].
  - unfold hd. lit_bytes.
  - exists (str "HTTP/1.1 200 OK"), []. split; [reflexivity|].
    split; [split; intros X; vm_compute in X; intuition discriminate|]. split; [vm_compute; discriminate|].
    split; [|constructor]. exists 49, [32], (str "200"), (str "OK"). split; [reflexivity|].
    split; [constructor; [lia|constructor]|]. split; [constructor; [easy|constructor]|]. split; [easy|].
    split; [change (str "200") with [50; 48; 48]; repeat (constructor; [lia|]); constructor|]. easy.
  - unfold hd in *. vm_compute in E. injection E as <-. vm_compute in D. discriminate D.
Qed.
Print Assumptions C42_count_without_body_refuted.

(** ** C43: decimal numbers *)
Theorem C43_str_to_dec_is_exact : forall l n, 0 <= n <= zlen l -> zlen l < 2 ^ 31 ->
  exists o, str_to_dec l n = Some o /\
    forall k v, o = Some (k, v) <->
      exists ds, decimal (take n l) ds /\ k = zlen ds /\ v = dec_value ds /\ dec_fits v.
Proof. exact str_to_dec_ok. Qed.
Print Assumptions C43_str_to_dec_is_exact.
(** Everything accepted is a non-negative [int]; every value up to 2147483568 is accepted. *)
Theorem C43_accepted_values : forall v, 0 <= v ->
  (dec_fits v -> v <= 2147483647) /\ (v <= 2147483568 -> dec_fits v).
Proof.
  intros v V. unfold dec_fits. pose proof (Z.div_mod v 10 ltac:(lia)). pose proof (Z.mod_pos_bound v 10 ltac:(lia)). split; lia.
Qed.
Print Assumptions C43_accepted_values.
Example C43_case : str_to_dec (str "1024 KB") 7 = Some (Some (4, 1024)) /\ str_to_dec (str "12x") 3 = Some None /\
  str_to_dec (str "4294967296") 10 = Some None.
Proof. vm_compute. auto. Qed.
(** Finding: some values that fit an [int] are rejected. *)
Theorem C43_every_int_accepted_refuted :
  ~ (forall ds, digits ds -> ds <> [] -> dec_value ds <= 2147483647 -> str_to_dec ds (zlen ds) = Some (Some (zlen ds, dec_value ds))).
Proof.
  intros H. specialize (H [50; 49; 52; 55; 52; 56; 51; 54; 52; 55]).
  assert (X : Some (@None (Z * Z)) = Some (Some (10, 2147483647))); [|discriminate X].
  vm_compute in H |- *. apply H; [|discriminate|discriminate].
  repeat (constructor; [split; discriminate|]). constructor.
Qed.
Print Assumptions C43_every_int_accepted_refuted.

(** ** C44: URIs *)
Theorem C44_uri_is_parsed_exactly : forall uri, bytes uri -> zlen uri < 2 ^ 31 -> ~ bare_scheme uri ->
  exists o, parse_uri uri (zlen uri) = Some o /\ forall i, o = Some i <-> uri_text uri i.
Proof. exact parse_uri_ok. Qed.
Print Assumptions C44_uri_is_parsed_exactly.
(** Finding: a URI that is only a scheme is read past its end. *)
Theorem C44_every_uri_read_in_bounds_refuted :
  (forall uri, bytes uri -> bare_scheme uri -> parse_uri uri (zlen uri) = None) /\
  ~ (forall uri, bytes uri -> parse_uri uri (zlen uri) <> None).
Proof.
  split; [exact parse_uri_bare|]. intros H. apply (H (str "http://")).
  - lit_bytes.
  - vm_compute. reflexivity.
Qed.
Print Assumptions C44_every_uri_read_in_bounds_refuted.
(** Finding: ports are not limited to 16 bits. *)
Theorem C44_port_is_16_bit_refuted :
  ~ (forall uri i, bytes uri -> parse_uri uri (zlen uri) = Some (Some i) -> u_port i < 65536).
Proof.
  intros H. specialize (H (str "http://h:99999") (mk_uri 1 7 1 99999 None)).
  assert (X : 99999 < 65536); [|lia]. apply H; [|vm_compute; reflexivity].
  lit_bytes.
Qed.
Print Assumptions C44_port_is_16_bit_refuted.
Example C44_case :
  parse_uri (str "HTTPS://me:pw@[::1]:8443/a:b") 28 = Some (Some (mk_uri 2 14 5 8443 (Some (24, 4)))) /\
  parse_uri (str "http://[::1]") 12 = Some (Some (mk_uri 1 7 5 80 None)) /\
  parse_uri (str "http://host:/x") 14 = Some None.
Proof. vm_compute. auto. Qed.

(** ** C47: requests *)
Theorem C47_chunk_post : forall ok serial host key len, 0 <= len < 2 ^ 31 ->
  (zlen serial <= 68 -> exists ds, decimal_text len ds /\
     sends ok (post_request serial host key ds) (start_chunk_post ok serial host key len)) /\
  (68 < zlen serial -> start_chunk_post ok serial host key len = (false, [])).
Proof. exact post_ok. Qed.
Print Assumptions C47_chunk_post.
Theorem C47_latest_release : forall ok junk serial hwver swtype swver host key, zlen junk = 48 ->
  bytes serial -> bytes hwver -> bytes swtype -> bytes swver ->
  exists r, get_latest_url ok junk serial hwver swtype swver host key = Some r /\
    (Forall param_fits [serial; hwver; swtype; swver] ->
       exists e1 e2 e3 e4, escaped serial e1 /\ escaped hwver e2 /\ escaped swtype e3 /\ escaped swver e4 /\
         sends ok (latest_request e1 e2 e3 e4 host key) r) /\
    (~ Forall param_fits [serial; hwver; swtype; swver] -> fst r = false).
Proof. exact latest_ok. Qed.
Print Assumptions C47_latest_release.
Theorem C47_ota_download : forall ok url, bytes url -> zlen url < 2 ^ 31 -> ~ bare_scheme url ->
  exists r, get_ota_payload ok url = Some r /\
    (forall i, uri_text url i -> sends ok (ota_request (uri_path url i) (uri_host url i)) r) /\
    ((forall i, ~ uri_text url i) -> r = (false, [])).
Proof. exact ota_ok. Qed.
Print Assumptions C47_ota_download.
Example C47_case :
  start_chunk_post (fun _ => true) (str "SN1") (str "h") (str "k") 120 =
    (true, [str "POST /api/v0/chunks/SN1 HTTP/1.1" ++ eol; str "Host:"; str "h"; eol; agent ++ eol;
            str "Memfault-Project-Key:"; str "k"; eol; str "Content-Type:application/octet-stream" ++ eol;
            str "Content-Length:120" ++ eol; eol]) /\
  start_chunk_post (fun i => Nat.ltb i 2) (str "SN1") (str "h") (str "k") 120 =
    (false, [str "POST /api/v0/chunks/SN1 HTTP/1.1" ++ eol; str "Host:"; str "h"]) /\
  get_ota_payload (fun _ => true) (str "http://h:1/p") =
    Some (true, [str "GET "; str "/p"; str " HTTP/1.1" ++ eol; str "Host:"; str "h"; eol; agent ++ eol; eol]).
Proof. vm_compute. auto. Qed.
