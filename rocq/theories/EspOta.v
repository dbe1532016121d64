(** Model of OTA updates in ports/esp_idf/memfault/common/memfault_platform_http_client.c.

    ESP-IDF's HTTP client and esp_https_ota() are answers given from outside.  The device information may
    change between the two calls that build the URL.  Simplifications: header fields that are set and log
    output are omitted. *)
From Coq Require Import String.
From Verif Require Import Base HttpUtils HttpRequest EspHttp.

(** sMemfaultDeviceInfo *)
Record info := mk_in { in_serial : list Z; in_hwver : list Z; in_swtype : list Z; in_swver : list Z }.

(** prv_deviceinfo_needs_url_escaping, :162-191 *)
Definition info_needs_escape (i : info) : bool :=
  needs_escape (in_serial i) || needs_escape (in_hwver i) || needs_escape (in_swtype i).
(** prv_build_latest_release_url, :193-219: the result, and the text in a buffer of [n] bytes (none if [n] is 0);
    [junk]: the 48 bytes of urlencoded_software_version *)
Definition release_url (plain : bool) (host : list Z) (i : info) (junk : list Z) (n : Z) : option (Z * list Z) :=
  if info_needs_escape i then Some (-1, [])                                (* :198-200 *)
  else
    do x <- urlencode (in_swver i) junk;                                   (* :204-207 *)
    let (rv, enc) := (x : Z * list Z) in
    if negb (rv =? 0) then Some (-1, [])                                   (* :208-211 *)
    else
      let s := (if plain then str "http" else str "https") ++ str "://" ++ host ++
               str "/api/v0/releases/latest/url?device_serial=" ++ in_serial i ++ str "&hardware_version=" ++ in_hwver i ++
               str "&software_type=" ++ in_swtype i ++ str "&current_version=" ++ cstr enc in
      Some (zlen s, if n =? 0 then [] else printed n s).                   (* :213-218 *)

(** One esp_http_client_read(): an error (negative), or data; what does not fit the room offered is left for
    the next read. *)
Inductive rd := RdErr (e : Z) | RdData (d : list Z).
Inductive oev := OInit (ok : bool) | OCleanup | OAlloc (n : Z) (ok : bool) | OFree | OOpen (url : list Z) (err : Z).

(** The loop, :283-291.  [buf]: download_url; [len]: content_length; reads are answered by [reads], then as at
    the end of a connection: nothing, with result 0.  [None]: a write out of bounds; [Some None]: still not
    finished after [fuel] reads. *)
Fixpoint read_body (fuel : nat) (reads : list rd) (buf : list Z) (len got : Z) : option (option (Z * list Z)) :=
  if got =? len then Some (Some (0, buf))                                  (* :284 *)
  else
    match fuel with
    | O => Some None
    | S fuel =>
        match reads with
        | RdErr e :: _ => Some (Some (platform_error e, buf))              (* :286-289 *)
        | RdData d :: r =>
            let room := len - got in
            let d1 := take room d in
            do buf <- splice buf got d1;                                   (* :285 *)
            read_body fuel (if room <? zlen d then RdData (drop room d) :: r else r) buf len (got + zlen d1)
        | [] => read_body fuel [] buf len got
        end
    end.

(** What the query meets: esp_http_client_init(), the two allocations, esp_http_client_open(),
    esp_http_client_fetch_headers() (the content length; 0 if the response does not say), reads, the status *)
Record q_env := mk_qe { qe_init : bool; qe_mem1 : bool; qe_open : Z; qe_len : Z; qe_mem2 : bool; qe_reads : list rd; qe_status : Z }.

(** memfault_esp_port_ota_get_release_url, :221-315, with [i1] and [i2] the device information at the two calls:
    the result, what *download_url_out is set to ([None]: not set; the text up to the first NUL otherwise), and
    the calls *)
Record q_out := mk_qo { qo_rv : Z; qo_url : option (option (list Z)); qo_evs : list oev }.
Section Query.
Variables (fuel : nat) (plain : bool) (host : list Z) (i1 i2 : info) (junk : list Z).
Definition get_release_url (e : q_env) : option (option q_out) :=
  if negb (qe_init e) then Some (Some (mk_qo (-1) None [OInit false]))     (* :228-231 *)
  else
    let l := [OInit true] in
    do x <- release_url plain host i1 junk 0;
    let (url_len, _) := (x : Z * list Z) in
    if url_len <? 0 then Some (Some (mk_qo (-1) (Some None) (l ++ [OCleanup])))             (* :235-238; free(NULL) twice *)
    else
      let l := l ++ [OAlloc (url_len + 1) (qe_mem1 e)] in                  (* :240-241 *)
      if negb (qe_mem1 e) then Some (Some (mk_qo (-1) (Some None) (l ++ [OCleanup])))
      else
        do y <- release_url plain host i2 junk (url_len + 1);
        let (len2, url) := (y : Z * list Z) in
        if negb (len2 =? url_len) then Some (Some (mk_qo (-1) (Some None) (l ++ [OFree; OCleanup])))   (* :247-249 *)
        else
          let l := l ++ [OOpen url (qe_open e)] in                         (* :260, :265 *)
          if negb (qe_open e =? 0) then Some (Some (mk_qo (platform_error (qe_open e)) (Some None) (l ++ [OFree; OCleanup])))
          else if qe_len e <? 0 then Some (Some (mk_qo (platform_error (qe_len e)) (Some None) (l ++ [OFree; OCleanup])))   (* :271-275 *)
          else
            let l := l ++ [OAlloc (qe_len e + 1) (qe_mem2 e)] in           (* :277 *)
            if negb (qe_mem2 e) then Some (Some (mk_qo (-1) (Some None) (l ++ [OFree; OCleanup])))
            else
              do z <- read_body fuel (qe_reads e) (fill (qe_len e + 1) 0) (qe_len e) 0;
              match (z : option (Z * list Z)) with
              | None => Some None
              | Some (rv, buf) =>
                  if negb (rv =? 0) then Some (Some (mk_qo rv (Some None) (l ++ [OFree; OCleanup; OFree])))
                  else if negb (qe_status e =? 200) && negb (qe_status e =? 204) then
                    Some (Some (mk_qo (-1) (Some None) (l ++ [OFree; OCleanup; OFree])))    (* :293-298 *)
                  else if qe_status e =? 200 then Some (Some (mk_qo 0 (Some (Some (cstr buf))) (l ++ [OFree; OCleanup])))   (* :307-308 *)
                  else Some (Some (mk_qo 0 (Some None) (l ++ [OFree; OCleanup; OFree])))
              end.

(** ** The update.  The application's handler: whether the mandatory callbacks and handle_ota_done are there,
    and what the callbacks answer. *)
Record handler := mk_ha { ha_avail : option bool; ha_complete : option bool; ha_done : bool }.
Inductive call := CAvailable | CInstall (url : list Z) | CComplete | CDone (rv : Z).
Record u_out := mk_uo { uo_rv : Z; uo_calls : list call; uo_evs : list oev }.
(** memfault_esp_port_ota_update, :317-381, on a handler ([None]: NULL); [ota]: the result of esp_https_ota().
    [None]: a NULL pointer is dereferenced, or memory outside a buffer accessed. *)
Definition finish (h : option handler) (url : option (list Z)) (rv : Z) (calls : list call) (l : list oev) : option (option u_out) :=
  let l := match url with Some _ => l ++ [OFree] | None => l end in        (* :375 *)
  match h with
  | None => None                                                           (* :377 *)
  | Some h => Some (Some (mk_uo rv (if ha_done h then calls ++ [CDone rv] else calls) l))
  end.
Definition esp_ota_update (h : option handler) (ota : Z) (e : q_env) : option (option u_out) :=
  match h with
  | Some (mk_ha (Some avail) (Some complete) _) =>
      do x <- get_release_url e;
      match (x : option q_out) with
      | None => Some None
      | Some q =>
          let url := match qo_url q with Some u => u | None => None end in (* :318 *)
          match url with
          | None => finish h None (qo_rv q) [] (qo_evs q)                  (* :329-331 *)
          | Some u =>
              if negb (qo_rv q =? 0) then finish h url (qo_rv q) [] (qo_evs q)
              else if negb avail then finish h url 1 [CAvailable] (qo_evs q)               (* :335-341 *)
              else if negb (ota =? 0) then finish h url (platform_error ota) [CAvailable; CInstall u] (qo_evs q)   (* :365-369 *)
              else finish h url (if complete then 1 else -1) [CAvailable; CInstall u; CComplete] (qo_evs q)        (* :371-372 *)
          end
      end
  | _ => finish h None (-2) [] []                                          (* :321-325 *)
  end.
End Query.
