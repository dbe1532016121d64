(** Model of ports/particle/src/memfault.cpp: chunks as events of the Particle cloud. *)
From Verif Require Import Base Base64 Packetizer Uplink.

(** m_connected (:484, false at first) and s_last_check_time (:59) *)
Record pt := mk_pt { pt_conn : bool; pt_last : Z }.
Definition pt_boot : pt := mk_pt false 0.

(** What a call of process() finds: milliseconds since boot at :60 and :64, Particle.maxEventDataSize(), the
    block malloc gives, and what Particle.publish() answers. *)
Record p_env := mk_pe { pe_t1 : Z; pe_t2 : Z; pe_max : Z; pe_mem : option (list Z); pe_pub : bool }.
Inductive p_out := PAlloc (n : Z) (ok : bool) | PPublish (text : list Z) (ok : bool) | PFree.

(** millis(): 32 bits *)
Definition millis (t : Z) : Z := u32 t.
(** MEMFAULT_BASE64_MAX_DECODE_LEN, components/include/memfault/util/base64.h:23 *)
Definition max_decode_len (n : Z) : Z := u32 (3 * n) / 4.
(** The string Particle.publish() (:89) is given by its address *)
Fixpoint text_at (b : list Z) : option (list Z) :=
  match b with
  | [] => None
  | x :: r => if x =? 0 then Some [] else do t <- text_at r; Some (x :: t)
  end.

(** :231-237; [status]: the event is cloud_status.  Simplification: the metrics of :239-264 are left out. *)
Definition pt_cloud (status connected : bool) (m : pt) : pt := if status then mk_pt connected (pt_last m) else m.

Section Particle.
Context {W : Type}.
Variables (so : sources W) (cfg : up_cfg).

(** Memfault::process, :53-95.  [None]: the assertion (a panic, :47-51), or an access outside the block. *)
Definition pt_process (e : p_env) (m : pt) (w : W) (st : pk) : option (pt * list p_out * pk * W) :=
  if negb (pt_conn m) then Some (m, [], st, w)                                (* :54-57 *)
  else if u32 (millis (pe_t1 e) - pt_last m) <? 1000 then Some (m, [], st, w) (* :60-62 *)
  else
    let m := mk_pt (pt_conn m) (millis (pe_t2 e)) in                          (* :64 *)
    do y <- up_avail so cfg w st;                                             (* :66-68 *)
    let '(avail, w, _) := (y : bool * W * list pk_call) in
    if negb avail then Some (m, [], st, w)
    else
      match pe_mem e with
      | None => Some (m, [PAlloc (u32 (pe_max e + 1)) false], st, w)          (* :72-77 *)
      | Some b =>
          do z <- up_get_chunk so cfg w st (take (max_decode_len (pe_max e)) b);   (* :79-81 *)
          let '(ok, d, st, w, _) := (z : bool * list Z * pk * W * list pk_call) in
          do l <- (if ok then
                     let n := b64_enc_len (zlen d) in                         (* :83 *)
                     if pe_max e <? n then None                               (* :84 *)
                     else
                       do b <- splice b 0 d;
                       do b <- base64_encode_inplace b (zlen d);              (* :86 *)
                       do b <- put b n 0;                                     (* :87 *)
                       do t <- text_at b;
                       Some [PPublish t (pe_pub e)]                           (* :89-91 *)
                   else Some []);
          Some (m, PAlloc (u32 (pe_max e + 1)) true :: l ++ [PFree], st, w)   (* :94 *)
      end.

(** ** Histories: events of the cloud, calls of process(), and everything else the application does. *)
Context {O R : Type}.
Variable app : W -> O -> option (R * W).
Inductive p_op := PtCloud (status connected : bool) | PtProcess (e : p_env) | PtApp (o : O).
Inductive p_res := PtOut (l : list p_out) | PtRApp (r : R).
Definition pt_step (m : pt) (w : W) (st : pk) (o : p_op) : option (p_res * pt * pk * W) :=
  match o with
  | PtCloud s c => Some (PtOut [], pt_cloud s c m, st, w)
  | PtProcess e => do x <- pt_process e m w st; let '(m, l, st, w) := (x : pt * list p_out * pk * W) in Some (PtOut l, m, st, w)
  | PtApp o => do x <- app w o; let (r, w) := (x : R * W) in Some (PtRApp r, m, st, w)
  end.
Fixpoint pt_run (m : pt) (w : W) (st : pk) (ops : list p_op) : option (list p_res * pt * pk * W) :=
  match ops with
  | [] => Some ([], m, st, w)
  | o :: r => do x <- pt_step m w st o; let '(res, m, st, w) := (x : p_res * pt * pk * W) in
              do y <- pt_run m w st r; let '(rs, m, st, w) := (y : list p_res * pt * pk * W) in Some (res :: rs, m, st, w)
  end.
End Particle.
Arguments PtCloud {O}. Arguments PtProcess {O}. Arguments PtApp {O}. Arguments PtOut {R}. Arguments PtRApp {R}.
