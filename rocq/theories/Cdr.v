(** Model of components/core/src/memfault_custom_data_recording.c: custom data recordings as a data
    source of the packetizer. *)
From Verif Require Import Base Cbor SerializerHelper.

(** include/memfault/core/custom_data_recording.h:40-79; [cm_time]: the start time when its type is Unix
    seconds. *)
Record cdr_meta := mk_cm {
  cm_time : option Z; cm_mimes : list (list Z); cm_size : Z; cm_duration : Z; cm_reason : list Z }.
(** A recording an application holds: what [has_cdr_cb] reports and what [read_data_cb] reads from. *)
Record cdr_rec := mk_cr { cr_meta : cdr_meta; cr_data : list Z }.
(** The recordings each source (a pointer to sMemfaultCdrSourceImpl, here a number) still holds. *)
Definition cdr_world := Z -> list cdr_rec.
Definition w_set (w : cdr_world) (i : Z) (l : list cdr_rec) : cdr_world := fun j => if j =? i then l else w j.

(** memfault_custom_data_recording.c:33-43: s_cdr_sources, s_memfault_cdr_source_ctx. *)
Record cdr := mk_cdr {
  cd_sources : list (option Z);   (* NULL: None *)
  cd_active : option Z;
  cd_total : Z;
  cd_meta : cdr_meta;
  cd_enc_len : Z;
  cd_enc : list Z }.
Definition cm_zero : cdr_meta := mk_cm None [] 0 0 [].
(** memfault_custom_data_recording.c:33, :43 at boot, with MEMFAULT_CDR_MAX_DATA_SOURCES = [n],
    MEMFAULT_CDR_MAX_ENCODED_METADATA_LEN = [max] (also :196-199, memfault_cdr_source_reset). *)
Definition cdr_init (n max : Z) : cdr := mk_cdr (repeat None (Z.to_nat n)) None 0 cm_zero 0 (fill max 0).

(** memfault_custom_data_recording.c:45-92; the result of the dictionary head (:59) is ignored. *)
Definition e_cdr (env : senv) (m : cdr_meta) : eprog :=
  e_and (e_metadata_with_time env 5 (cm_time m))                        (* :48 *)
  (e_and (e_all [OpUnsigned 4])                                         (* :52 *)
  (ECall (OpDict 4) (fun _ =>                                           (* :59 *)
    e_and (e_u32 1 (cm_duration m))                                     (* :61 *)
    (e_and (e_all [OpUnsigned 2; OpArray (zlen (cm_mimes m))])          (* :66 *)
    (e_and (e_all (map OpString (cm_mimes m)))                          (* :71-75 *)
    (e_and (e_all [OpUnsigned 3; OpString (cm_reason m)])               (* :77 *)
    (e_and (e_all [OpUnsigned 4])                                       (* :82 *)
           (e_all [OpBytesBegin (cm_size m)])))))))).                   (* :86 *)

(** memfault_custom_data_recording.c:94-111, the loop: the first registered source with a recording. *)
Fixpoint cdr_find (w : cdr_world) (table : list (option Z)) : option (Z * cdr_meta) :=
  match table with
  | [] => None
  | None :: r => cdr_find w r                                           (* :100 *)
  | Some i :: r => match w i with
                   | c :: _ => Some (i, cr_meta c)                      (* :104 *)
                   | [] => cdr_find w r
                   end
  end.
Definition cdr_try_get (w : cdr_world) (s : cdr) : cdr :=
  match cd_active s with
  | Some _ => s                                                         (* :93 *)
  | None => match cdr_find w (cd_sources s) with
            | Some (i, m) => mk_cdr (cd_sources s) (Some i) (cd_total s) m (cd_enc_len s) (cd_enc s)
            | None => s
            end
  end.

(** memfault_custom_data_recording.c:113-137: the announced size. *)
Definition cdr_has (env : senv) (w : cdr_world) (s : cdr) : option (option Z * cdr) :=
  let s := cdr_try_get w s in
  match cd_active s with
  | None => Some (None, s)                                              (* :115 *)
  | Some _ =>
      let (ok, e) := eprog_run (cbor_init (zlen (cd_enc s))) (e_cdr env (cd_meta s)) in
      do enc <- memcpy_writes (cd_enc s) (ce_writes e);
      if negb ok then Some (None, mk_cdr (cd_sources s) (cd_active s) (cd_total s) (cd_meta s) (cd_enc_len s) enc)  (* :124 *)
      else
        let total := u32 (cbor_deinit e + cm_size (cd_meta s)) in       (* :130-132 *)
        Some (Some total, mk_cdr (cd_sources s) (cd_active s) total (cd_meta s) (cbor_deinit e) enc)
  end.

(** The application's read_data_cb: true only when all of [buf] was filled. *)
Definition cdr_read_data (w : cdr_world) (i off len : Z) : option (list Z) :=
  match w i with c :: _ => read_at (cr_data c) off len | [] => None end.

(** memfault_custom_data_recording.c:139-171: [Some bytes] when true is returned.  The outer [None]: a
    read outside the encoded metadata. *)
Definition cdr_read (w : cdr_world) (s : cdr) (offset buf_len : Z) : option (option (list Z)) :=
  match cd_active s with
  | None => Some None                                                   (* :140 *)
  | Some i =>
      if cd_total s <? u32 (offset + buf_len) then Some None            (* :144 *)
      else if offset <? cd_enc_len s then                               (* :149 *)
        let n := Z.min buf_len (cd_enc_len s - offset) in               (* :150 *)
        do h <- read_at (cd_enc s) offset n;                            (* :152 *)
        let buf_len := buf_len - n in
        if buf_len =? 0 then Some (Some h)                              (* :155 *)
        else match cdr_read_data w i 0 buf_len with                     (* :159, :166 *)
             | Some d => Some (Some (h ++ d))
             | None => Some None
             end
      else match cdr_read_data w i (offset - cd_enc_len s) buf_len with (* :162, :166 *)
           | Some d => Some (Some d)
           | None => Some None
           end
  end.

(** memfault_custom_data_recording.c:173-182; mark_cdr_read_cb drops the recording (custom_data_recording.h:104-107). *)
Definition cdr_mark (w : cdr_world) (s : cdr) : cdr_world * cdr :=
  match cd_active s with
  | None => (w, s)
  | Some i => (w_set w i (tl (w i)), mk_cdr (cd_sources s) None 0 cm_zero 0 (fill (zlen (cd_enc s)) 0))
  end.

(** memfault_custom_data_recording.c:184-199 *)
Fixpoint cdr_register_in (table : list (option Z)) (i : Z) : bool * list (option Z) :=
  match table with
  | [] => (false, [])
  | None :: r => (true, Some i :: r)
  | Some j :: r => let (b, r) := cdr_register_in r i in (b, Some j :: r)
  end.
Definition cdr_register (s : cdr) (i : Z) : bool * cdr :=
  let (b, t) := cdr_register_in (cd_sources s) i in
  (b, mk_cdr t (cd_active s) (cd_total s) (cd_meta s) (cd_enc_len s) (cd_enc s)).

(** ** Histories *)
Inductive cdr_op :=
| CoRegister (i : Z) | CoHas | CoRead (off len : Z) | CoMark | CoReset
| CoRecord (i : Z) (r : cdr_rec).       (* the application finishes a recording *)
Inductive cdr_res := CrBool (b : bool) | CrSize (n : option Z) | CrData (d : option (list Z)) | CrUnit.

Definition cdr_step (env : senv) (w : cdr_world) (s : cdr) (o : cdr_op) : option (cdr_res * cdr_world * cdr) :=
  match o with
  | CoRegister i => let (b, s) := cdr_register s i in Some (CrBool b, w, s)
  | CoHas => do x <- cdr_has env w s; let (r, s) := x in Some (CrSize r, w, s)
  | CoRead off len => do d <- cdr_read w s off len; Some (CrData d, w, s)
  | CoMark => let (w, s) := cdr_mark w s in Some (CrUnit, w, s)
  | CoReset => Some (CrUnit, w, cdr_init (zlen (cd_sources s)) (zlen (cd_enc s)))
  | CoRecord i r => Some (CrUnit, w_set w i (w i ++ [r]), s)
  end.
Fixpoint cdr_run (env : senv) (w : cdr_world) (s : cdr) (ops : list cdr_op) : option (list cdr_res * cdr_world * cdr) :=
  match ops with
  | [] => Some ([], w, s)
  | o :: r => do x <- cdr_step env w s o;
              let '(y, w, s) := x in
              do z <- cdr_run env w s r;
              let '(ys, w, s) := z in Some (y :: ys, w, s)
  end.
