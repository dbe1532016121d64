(** C83, C84, C85: Zephyr's OTA client and its sockets. *)
From Coq Require Import String.
From Verif Require Import Base HttpUtils HttpUtilsSpec HttpRequest HttpRequestSpec ZephyrHttp ZephyrHttpSpec ZephyrOta ZephyrOtaSpec ZephyrOtaProofs ZephyrSock ZephyrSockSpec ZephyrSockProofs.

(** The response with the download URL, in pieces of any sizes, with the connection stalling or failing
    anywhere: the result is the text the server sent, terminated, if the status is 200; no update for other
    successes; an error for an error, without memory, or if the connection failed before the end.  All
    writes stay inside the memory. *)
Theorem C83_url_is_the_body : forall hd body code clen, bytes hd -> response_head hd code clen -> clen = zlen body -> clen <> 0 ->
  forall alloc r missing, serves r hd body missing ->
  exists u asked, url_response alloc r = Some (u, asked) /\
    match u with
    | Url mem => code = 200 /\ mem = body ++ [0]
    | UpToDate => code < 400 /\ code <> 200
    | UrlError => 400 <= code \/ (code = 200 /\ alloc (zlen body + 1) = false) \/ ~ (no_failure r /\ missing = [])
    end.
Proof. exact url_good. Qed.
Print Assumptions C83_url_is_the_body.

(** A server that sends more than it announced makes the code write behind the memory (:596-598). *)
Definition c83_head (status len : string) : list Z :=
  str "HTTP/1.1 " ++ str status ++ [13; 10] ++ str "Content-Length: " ++ str len ++ [13; 10; 13; 10].
Definition c83_split (l : list Z) (n : Z) : list rx := [RxData (take n l); RxData (drop n l)].
Theorem C83_longer_body_is_safe_refuted : exists r,
  rx_bytes r = c83_head "200 OK" "2" ++ str "https://memfault.com/x" /\ url_response (fun _ => true) r = None.
Proof. exists (c83_split (c83_head "200 OK" "2" ++ str "https://memfault.com/x") 38). split; vm_compute; reflexivity. Qed.
Print Assumptions C83_longer_body_is_safe_refuted.
(** Without a length, or with length 0, the final line feed of the header is taken for a byte of the body,
    the terminator is lost, and the next bytes from the server go behind the memory: as much as it sends (:602). *)
Theorem C83_empty_body_is_safe_refuted : exists r1 r2,
  rx_bytes r1 = c83_head "200 OK" "0" /\ url_response (fun _ => true) r1 = Some (UrlError, Some 1) /\
  rx_bytes r2 = c83_head "200 OK" "0" ++ str "A" /\ url_response (fun _ => true) r2 = None.
Proof.
  exists [RxData (c83_head "200 OK" "0")], [RxData (c83_head "200 OK" "0"); RxData (str "A")].
  split; [vm_compute; reflexivity|]. split; [vm_compute; reflexivity|]. split; vm_compute; reflexivity.
Qed.
Print Assumptions C83_empty_body_is_safe_refuted.

(** A URL in three pieces, with the last byte of the header at the start of the second. *)
Example C83_case : let all := c83_head "200 OK" "22" ++ str "https://memfault.com/x" in
  url_response (fun n => n =? 23) (RxAgain :: c83_split (take 50 all) 38 ++ [RxAgain; RxData (drop 50 all)]) = Some (Url (str "https://memfault.com/x" ++ [0]), Some 23).
Proof. vm_compute. reflexivity. Qed.
Lemma C83_case_covered : response_head (c83_head "200 OK" "22") 200 22.
Proof.
  exists (str "HTTP/1.1 200 OK"), [str "Content-Length: 22"]. split; [reflexivity|]. assert (X : forall l, existsb (fun c => (c =? 13) || (c =? 10)) l = false -> no_crlf l).
  { intros l E. split; intros I; enough (existsb (fun c => (c =? 13) || (c =? 10)) l = true) by congruence; apply existsb_exists; eexists; (split; [exact I|reflexivity]). }
  split; [apply X; reflexivity|]. split; [vm_compute; discriminate|]. split.
  - exists 49, [32], (str "200"), (str "OK"). split; [reflexivity|]. split; [constructor; [lia|constructor]|]. split; [constructor; [reflexivity|constructor]|]. split; [discriminate|].
    split; [repeat (constructor; [vm_compute; split; discriminate|]); constructor|]. split; reflexivity.
  - eapply hs_length; [apply X; reflexivity|vm_compute; discriminate| |apply hs_nil].
    exists (str "Content-Length"), [], [32], (str "22"), []. split; [reflexivity|]. split.
    + repeat (constructor; [first [left; reflexivity|right; split; [vm_compute; split; discriminate|reflexivity]]|]). constructor.
    + split; [constructor|]. split; [constructor; [reflexivity|constructor]|]. split; [discriminate|]. split; [repeat (constructor; [vm_compute; split; discriminate|]); constructor|].
      split; [left; reflexivity|]. split; [reflexivity|vm_compute; discriminate].
Qed.

(** The download, in pieces of any sizes: the handler gets the announced size, then the payload in order in
    pieces that fit its buffer, and the end only after all of it; after a refusal it gets nothing more;
    success means the end was accepted.  An error status gives it nothing.  If the connection holds and
    the handler accepts, the download succeeds. *)
Theorem C84_download_is_the_payload : forall hd body code clen, bytes hd -> response_head hd code clen -> clen = zlen body -> clen <> 0 ->
  forall ans cap r missing, 0 < cap -> serves r hd body missing ->
  exists b log r', install ans cap r = Some (b, log, r') /\ handled ans cap clen body b log /\ (400 <= code -> log = []) /\
    (no_failure r -> missing = [] -> code < 400 -> (forall l, ans l = true) -> b = true).
Proof. exact install_good. Qed.
Print Assumptions C84_download_is_the_payload.

(** Whatever the server sends: no memory fault, no piece is longer than the handler's buffer, and the calls
    come in order. *)
Theorem C84_any_server_is_safe : forall ans cap r, bytes (rx_bytes r) -> zlen (rx_bytes r) < 2 ^ 31 -> 0 <= cap ->
  exists b log r', install ans cap r = Some (b, log, r') /\
    (log = [] /\ b = false \/ exists size pieces fin, log = HUpdate size :: map HData pieces ++ fin /\ Forall (fun d => zlen d <= cap) pieces /\
       (fin = [] \/ fin = [HComplete]) /\ (b = true -> fin = [HComplete])).
Proof. exact install_safe. Qed.
Print Assumptions C84_any_server_is_safe.

(** The whole update: from the request for the URL to the download from that URL.  1: the handler accepted
    all of the payload; 0: the first server reported success without an update; -1 otherwise.  The
    requests are those of HttpRequestSpec.v, the second for the host and path of the URL received. *)
Theorem C84_update : forall o oc junk ans cap n1 n2 l hd1 code1 url missing1 hd2 code2 payload missing2,
  zlen junk = 48 -> bytes (oc_serial oc) -> bytes (oc_hwver oc) -> bytes (oc_swtype oc) -> bytes (oc_swver oc) ->
  Forall param_fits [oc_serial oc; oc_hwver oc; oc_swtype oc; oc_swver oc] -> 0 < cap ->
  bytes hd1 -> response_head hd1 code1 (zlen url) -> url <> [] -> serves (n_rx n1) hd1 url missing1 ->
  bytes url -> ~ In 0 url -> ~ bare_scheme url ->
  bytes hd2 -> response_head hd2 code2 (zlen payload) -> payload <> [] -> serves (n_rx n2) hd2 payload missing2 ->
  exists rv s1 s2 log l', ota_update o oc junk ans cap n1 n2 l = Some (rv, (s1, s2), log, l') /\
    handled ans cap (zlen payload) payload (rv =? 1) log /\
    (rv = -1 \/ rv = 0 /\ code1 < 400 /\ code1 <> 200 /\ log = [] \/ rv = 1 /\ code1 = 200 /\ code2 < 400) /\
    (rv <> -1 -> exists e1 e2 e3 e4, escaped (oc_serial oc) e1 /\ escaped (oc_hwver oc) e2 /\ escaped (oc_swtype oc) e3 /\ escaped (oc_swver oc) e4 /\
       s1 = latest_request e1 e2 e3 e4 (oc_host oc) (oc_key oc)) /\
    (log <> [] -> exists i, uri_text url i /\ s2 = ota_request (uri_path url i) (uri_host url i)).
Proof. exact ota_whole. Qed.
Print Assumptions C84_update.

(** Any status below 400 counts as a payload (:489): the page of a redirect is installed. *)
Theorem C84_only_success_is_installed_refuted : exists r log r',
  rx_bytes r = c83_head "302 Found" "5" ++ str "moved" /\ install (fun _ => true) 64 r = Some (true, log, r') /\
  log = [HUpdate 5; HData (str "moved"); HComplete].
Proof. eexists [RxData (c83_head "302 Found" "5" ++ str "moved")], _, _. split; [vm_compute; reflexivity|]. split; vm_compute; reflexivity. Qed.
Print Assumptions C84_only_success_is_installed_refuted.
(** An empty payload: the handler gets a line feed of the header as data, more than the size it was told,
    and the download does not complete; a stalled read gives it an empty piece; bytes behind the payload
    are given to it if they arrive with its end. *)
Theorem C84_data_is_payload_refuted :
  (exists r r', rx_bytes r = c83_head "200 OK" "0" /\ install (fun _ => true) 64 r = Some (false, [HUpdate 0; HData [10]], r')) /\
  (exists r r', rx_bytes r = c83_head "200 OK" "2" ++ str "ab" /\ install (fun _ => true) 64 r = Some (true, [HUpdate 2; HData (str "a"); HData []; HData (str "b"); HComplete], r')) /\
  (exists r r', rx_bytes r = c83_head "200 OK" "2" ++ str "abc" /\ install (fun _ => true) 64 r = Some (false, [HUpdate 2; HData (str "abc")], r')).
Proof.
  split; [|split].
  - eexists [RxData (c83_head "200 OK" "0")], _. split; vm_compute; reflexivity.
  - eexists [RxData (c83_head "200 OK" "2" ++ str "a"); RxAgain; RxData (str "b")], _. split; vm_compute; reflexivity.
  - eexists [RxData (c83_head "200 OK" "2" ++ str "abc")], _. split; vm_compute; reflexivity.
Qed.
Print Assumptions C84_data_is_payload_refuted.

(** An update over two connections, with a buffer of 8 bytes. *)
Definition c84_os : os := mk_os (fun _ => 0) (fun l => zlen l) (fun _ => 0) (fun _ => 0) (fun _ _ => true).
Definition c84_oc := mk_oc (str "dev1") (str "hw") (str "app") (str "1.0") (str "device.memfault.com") (str "k3y").
Example C84_case :
  (do x <- ota_update c84_os c84_oc (fill 48 0) (fun _ => true) 8
     (mk_net (repeat (TxTake 1000) 40) [RxData (c83_head "200 OK" "22" ++ str "https://memfault.com/x")])
     (mk_net (repeat (TxTake 1000) 40) [RxData (c83_head "200 OK" "12" ++ str "firm"); RxAgain; RxData (str "ware-1.1")]) [];
   let '(rv, (_, s2), log, l) := x in Some (rv, s2 , log, l))
  = Some (1, ota_request (str "/x") (str "memfault.com"), [HUpdate 12; HData (str "f"); HData (str "irm"); HData []; HData (str "ware-1.1"); HComplete],
     [EAddr 0; ESock 1; EConf 1 0; EConn 1 0; EAlloc 23 true; EClose 1; EAddrFree; EAddr 0; ESock 8; EConf 8 0; EConn 8 0; EClose 8; EAddrFree; EFree]).
Proof. vm_compute. reflexivity. Qed.

(** Sockets and address lists: after any sequence of calls of the socket functions on a context, whatever
    the network stack answers, exactly what the context refers to is held, and nothing was given back
    twice; as long as connecting through the function for that alone does not fail. *)
Theorem C85_contexts_hold_what_is_open : forall o, addr_errors o -> forall ops c l rvs c' l', s_run o ops c l = (rvs, c', l') ->
  (forall l, 0 <= os_conn o l) \/ ~ In SConnect ops ->
  exists d, l' = l ++ d /\ forall s, 0 <= d_addrs s -> after (holding c s) d = Some (holding c' s).
Proof. exact s_run_ok. Qed.
Print Assumptions C85_contexts_hold_what_is_open.

(** An OTA update, successful or not, and asking for the URL and releasing it, give back all they take:
    sockets, address lists, memory. *)
Theorem C85_update_gives_everything_back : forall o oc junk ans cap n1 n2 l rv sent log l', addr_errors o ->
  ota_update o oc junk ans cap n1 n2 l = Some (rv, sent, log, l') -> exists d, l' = l ++ d /\ balanced d.
Proof. exact ota_balanced. Qed.
Print Assumptions C85_update_gives_everything_back.
Theorem C85_url_is_given_back : forall o oc junk n l rv url sent l', addr_errors o -> get_download_url o oc junk n l = Some (rv, url, sent, l') ->
  exists d, release_download_url url l' = l ++ d /\ balanced d /\ (rv = 1 <-> url <> None) /\ (rv = -1 \/ rv = 0 \/ rv = 1).
Proof. exact url_balanced. Qed.
Print Assumptions C85_url_is_given_back.

(** Posting all data: the number of bytes on success, with everything given back; on failure -1, and
    everything is given back unless the upload itself failed. *)
Theorem C85_post_data : forall o avail up l rv l', addr_errors o -> post_data o avail up l = (rv, l') -> fst up = 0 \/ fst up = -1 -> 0 <= snd up ->
  exists d, l' = l ++ d /\
    (avail = false /\ rv = 0 /\ d = [] \/
     avail = true /\ fst up = 0 /\ rv = snd up /\ balanced d \/
     avail = true /\ rv = -1 /\ (balanced d \/ fst up = -1 /\ exists fd, 0 <= fd /\ forall s, 0 <= d_addrs s -> after s d = Some (holding (mk_hc fd true) s))).
Proof. exact post_data_ok. Qed.
Print Assumptions C85_post_data.

(** An upload that fails leaves the socket open and the address list allocated (:698-704): the context that
    refers to them is a local variable. *)
Theorem C85_post_data_closes_refuted : exists l, post_data c84_os true (-1, 0) [] = (-1, l) /\
  after (mk_held [] 0 0) l = Some (mk_held [1] 1 0).
Proof. eexists. split; vm_compute; reflexivity. Qed.
Print Assumptions C85_post_data_closes_refuted.
(** A connection that cannot be made with memfault_zephyr_port_http_connect_socket closes the socket twice
    (:278, :770): the second time it may be someone else's. *)
Definition c85_os : os := mk_os (fun _ => 0) (fun l => 5) (fun _ => 0) (fun _ => -1) (fun _ _ => true).
Theorem C85_closed_once_refuted : exists rvs c l, s_run c85_os [SCreate; SConfigure; SConnect] (mk_hc (-1) false) [] = (rvs, c, l) /\
  rvs = [0; 0; -1] /\ l = [EAddr 0; ESock 5; EConf 5 0; EConn 5 (-1); EClose 5; EClose 5; EAddrFree] /\ after (mk_held [] 0 0) l = None.
Proof. eexists _, _, _. split; [vm_compute; reflexivity|]. split; [reflexivity|]. split; reflexivity. Qed.
Print Assumptions C85_closed_once_refuted.

(** Open, fail to open again, create: one socket and one address list are held. *)
Definition c85_os2 : os := mk_os (fun _ => 0) (fun l => 100 + zlen l) (fun l => if zlen l <? 9 then 0 else -1) (fun _ => 0) (fun _ _ => true).
Example C85_case : s_run c85_os2 [SOpen; SOpen; SOpen; SCreate] (mk_hc (-1) false) [] =
  ([0; 0; -1; 0], mk_hc 118 true,
   [EAddr 0; ESock 101; EConf 101 0; EConn 101 0; EClose 101; EAddrFree; EAddr 0; ESock 107; EConf 107 0; EConn 107 0; EClose 107; EAddrFree;
    EAddr 0; ESock 113; EConf 113 (-1); EClose 113; EAddrFree; EAddr 0; ESock 118]).
Proof. vm_compute. reflexivity. Qed.
