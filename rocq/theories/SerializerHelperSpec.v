(** Independent specification of storing events: every encode call either adds its event to the
    queue or is counted; and what the events mean. *)
From Verif Require Import Base Cbor CborSpec CborDoc EventStorage EventStorageSpec SerializerHelper.

(** The queue, and the number of events missed since the drop counter was last read. *)
Record ssv := mk_ssv { q_store : sev; q_missed : Z }.

(** Space for one more event. *)
Definition q_space (cap : Z) (v : sev) : Z := Z.max 0 (cap - used v - 2).

(** [None]: contract broken (another write is in progress, or the callback claims success for an
    event without data or of more than 65532 bytes). *)
Definition ssv_step (cfg : es_cfg) (cap : Z) (v : ssv) (o : sh_op) : option (sh_res * ssv) :=
  match o with
  | SEncode p =>
      match v_part (q_store v) with
      | Some _ => None
      | None =>
          let (ok, e) := eprog_run (cbor_init (q_space cap (q_store v))) p in
          if ok then
            if (1 <=? zlen (ce_output e)) && (zlen (ce_output e) <=? 65532)
            then Some (RSaved true, mk_ssv (mk_sev (v_events (q_store v) ++ [ce_output e]) None (v_reading (q_store v))) (q_missed v))
            else None
          else Some (RSaved false, mk_ssv (q_store v) (q_missed v + 1))
      end
  | SReadDrops => Some (RDrops (q_missed v mod 4294967296), mk_ssv (q_store v) 0)
  | SStore o => do x <- sev_step cfg cap (q_store v) o; let (r, q) := x in Some (RStore r, mk_ssv q (q_missed v))
  end.
Fixpoint ssv_run (cfg : es_cfg) (cap : Z) (v : ssv) (ops : list sh_op) : option (list sh_res * ssv) :=
  match ops with
  | [] => Some ([], v)
  | o :: r => do x <- ssv_step cfg cap v o; let (res, v) := x in
              do y <- ssv_run cfg cap v r; let (rs, v) := y in Some (res :: rs, v)
  end.

(** The data an encode callback passes to the encoder is bytes, less than 2 GiB per call. *)
Fixpoint eprog_ok (p : eprog) : Prop :=
  match p with
  | ERet _ => True
  | ECall o k => bytes (op_data o) /\ zlen (op_data o) < 2147483600 /\ forall b, eprog_ok (k b)
  end.
Definition shop_ok (o : sh_op) : Prop :=
  match o with SEncode p => eprog_ok p | SReadDrops => True | SStore o => ev_ok o end.

(** ** What the events mean *)
Definition kv_if (b : bool) (k : Z) (v : item) : list (item * item) := if b then [(IInt k, v)] else [].
Definition kv_opt {A} (o : option A) (k : Z) (f : A -> item) : list (item * item) :=
  match o with Some x => [(IInt k, f x)] | None => [] end.

(** The keys are those of include/memfault/core/serializer_key_ids.h. *)
Definition event_item (env : senv) (type : Z) (time : option Z) (info : item) : item :=
  IMap ([(IInt 2, IInt type); (IInt 3, IInt 1)]
        ++ kv_if (en_with_serial env) 7 (IText (en_serial env))
        ++ [(IInt 10, IText (en_swtype env)); (IInt 9, IText (en_swver env)); (IInt 6, IText (en_hwver env))]
        ++ kv_opt (en_build env) 11 (fun id => IBytes (take (en_build_len env) id))
        ++ kv_opt time 1 (fun t => IInt (t mod 4294967296))
        ++ [(IInt 4, info)]).
(** Reboot event: zero registers are left out. *)
Definition reboot_item (env : senv) (i : reset_info) : item :=
  event_item env 2 (en_time env)
    (IMap ([(IInt 1, IInt (ri_reason i))] ++ kv_if (negb (ri_pc i =? 0)) 2 (IInt (ri_pc i))
           ++ kv_if (negb (ri_lr i =? 0)) 3 (IInt (ri_lr i)) ++ kv_if (negb (ri_reg0 i =? 0)) 4 (IInt (ri_reg0 i))
           ++ [(IInt 5, IInt (ri_coredump i))])).

(** Strings and build id of less than 64 KiB, included build id between 5 and 20 of the 20 bytes
    (the static assertion at memfault_serializer_helper.c:145-148), time not negative. *)
Definition senv_ok (env : senv) : Prop :=
  Forall (fun s => bytes s /\ zlen s < 65536) [en_serial env; en_swtype env; en_swver env; en_hwver env] /\
  5 <= en_build_len env <= 20 /\
  match en_build env with Some id => bytes id /\ zlen id = 20 | None => True end /\
  match en_time env with Some t => 0 <= t | None => True end.
Definition reset_ok (i : reset_info) : Prop :=
  is_u16 (ri_reason i) /\ is_u32 (ri_pc i) /\ is_u32 (ri_lr i) /\ is_u32 (ri_reg0 i) /\ 0 <= ri_coredump i <= 1.
