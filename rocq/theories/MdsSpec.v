(** Specification of the Memfault Diagnostic Service: who is sent what, in which order and with which
    numbers, how requests are answered, and what keeps the stream going. *)
From Coq Require Import String.
From Verif Require Import Base Packetizer PacketizerSpec Uplink UplinkSpec Mds.

(** What clients can tell: who is subscribed, whether streaming was last turned on, the number of
    notifications sent since a subscriber last disconnected, and the value that could not be sent at the last
    attempt. *)
Record seen := mk_sn { n_sub : option Z; n_on : bool; n_count : Z; n_kept : option (list Z) }.
Definition seen_boot : seen := mk_sn None false 0 None.

(** Attempts to notify connections.  Only the subscriber is sent anything, and only while streaming is on; a
    value that could not be sent is sent again, unchanged, before any other; a new value is a chunk behind its
    number, which counts from 0 and wraps at 32, and fits the MTU. *)
Inductive tries : seen -> list (Z * n_env) -> list out -> seen -> Prop :=
| T_end s : tries s [] [] s
| T_none s c e l o s' : n_sub s <> Some c \/ n_on s = false \/ ne_mtu e = None -> tries s l o s' -> tries s ((c, e) :: l) o s'
| T_idle c n e l mtu o s' : ne_mtu e = Some mtu -> tries (mk_sn (Some c) true n None) l o s' ->
    tries (mk_sn (Some c) true n None) ((c, e) :: l) (OStart :: o) s'
| T_nomem c n e l mtu o s' : ne_mtu e = Some mtu -> ne_mem e = None -> tries (mk_sn (Some c) true n None) l o s' ->
    tries (mk_sn (Some c) true n None) ((c, e) :: l) (OAlloc (mtu - 3) false :: OStart :: o) s'
| T_new c n e l mtu chunk o s' : ne_mtu e = Some mtu -> 0 < zlen chunk -> zlen (n mod 32 :: chunk) <= mtu - 3 -> ne_send e = true ->
    tries (mk_sn (Some c) true (n + 1) None) l o s' ->
    tries (mk_sn (Some c) true n None) ((c, e) :: l) (OAlloc (mtu - 3) true :: ONotify c (n mod 32 :: chunk) true :: OFree :: o) s'
| T_kept c n e l mtu chunk o s' : ne_mtu e = Some mtu -> 0 < zlen chunk -> zlen (n mod 32 :: chunk) <= mtu - 3 -> ne_send e = false ->
    tries (mk_sn (Some c) true n (Some (n mod 32 :: chunk))) l o s' ->
    tries (mk_sn (Some c) true n None) ((c, e) :: l) (OAlloc (mtu - 3) true :: ONotify c (n mod 32 :: chunk) false :: OStart :: o) s'
| T_again c n e l mtu v o s' : ne_mtu e = Some mtu -> ne_send e = true -> tries (mk_sn (Some c) true (n + 1) None) l o s' ->
    tries (mk_sn (Some c) true n (Some v)) ((c, e) :: l) (ONotify c v true :: OFree :: o) s'
| T_fail c n e l mtu v o s' : ne_mtu e = Some mtu -> ne_send e = false -> tries (mk_sn (Some c) true n (Some v)) l o s' ->
    tries (mk_sn (Some c) true n (Some v)) ((c, e) :: l) (ONotify c v false :: OStart :: o) s'.

(** Reads: status and value *)
Definition value_of (mc : m_cfg) (h : hd) : option (list Z) :=
  match h with
  | HFeatures => Some [0] | HUri => Some (mc_base mc ++ mc_serial mc) | HAuth => Some (str "Memfault-Project-Key:" ++ mc_key mc) | HId => Some (mc_serial mc)
  | _ => None
  end.
Definition shown (mc : m_cfg) (access : bool) (h : hd) (off : Z) : Z * list Z :=
  match access, value_of mc h with
  | true, Some v =>
      if match h with HUri => 63 <? zlen v | _ => false end then (0x82, [])
      else if 512 <? zlen v then (0x80, []) else (0, drop off v)
  | _, _ => (2, [])
  end.

(** Writes: the status *)
Definition status_of (s : seen) (c : Z) (h : hd) (off : Z) (v : list Z) : Z :=
  match h with
  | HCccd => if negb (off =? 0) then 0x0b else if negb (zlen v =? 2) then 0x80
             else match n_sub s with Some c' => if c' =? c then 0 else 0x81 | None => 0 end
  | HChunk => if negb (off =? 0) then 0x0b else if negb (zlen v =? 1) then 0x80
              else match n_sub s with
                   | Some c' => if c' =? c then match v with [0] | [1] => 0 | _ => 6 end else 0x83
                   | None => 0x83
                   end
  | _ => 0x0a
  end.
(** The effect of a write that is accepted *)
Definition written (s : seen) (c : Z) (h : hd) (v : list Z) : seen :=
  match h, v with
  | HCccd, lo :: _ => mk_sn (if Z.odd lo then Some c else None) (n_on s) (n_count s) (n_kept s)
  | HChunk, b :: _ => mk_sn (n_sub s) (b =? 1) (n_count s) (n_kept s)
  | _, _ => s
  end.

(** One event *)
Inductive answers (mc : m_cfg) {O} : seen -> @m_op O -> list out -> seen -> Prop :=
| A_gone_sub s c : n_sub s = Some c -> answers mc s (MGone c) [OStop] (mk_sn None false 0 (n_kept s))
| A_gone_other s c : n_sub s <> Some c -> answers mc s (MGone c) [OStop] s
| A_read s access c h off : answers mc s (MRead access c h off) [OReadCfm c h (fst (shown mc access h off)) (snd (shown mc access h off))] s
| A_denied s e c h off v : answers mc s (MWrite false e c h off v) [OReadCfm c h 3 []] s
| A_refused s e c h off v : status_of s c h off v <> 0 -> answers mc s (MWrite true e c h off v) [OWriteCfm c h (status_of s c h off v)] s
| A_written s e c off v : status_of s c HCccd off v = 0 -> answers mc s (MWrite true e c HCccd off v) [OWriteCfm c HCccd 0] (written s c HCccd v)
| A_switched s e c off v o s' : status_of s c HChunk off v = 0 -> tries (written s c HChunk v) [(c, e)] o s' ->
    answers mc s (MWrite true e c HChunk off v) (o ++ [OWriteCfm c HChunk 0]) s'
| A_sent s c e o s' : tries s [(c, e)] o s' -> answers mc s (MSent c e) o s'
| A_timer s l o s' : tries s (rev l) o s' -> answers mc s (MTimer l) o s'.

(** The values sent *)
Definition sent_values (l : list out) : list (list Z) := flat_map (fun o => match o with ONotify _ v true => [v] | _ => [] end) l.
Definition m_outs {R} (rs : list (@m_res R)) : list out := flat_map (fun r => match r with MROut l => l | MRApp _ => [] end) rs.
(** The chunk of a value *)
Definition chunk_of (v : list Z) : list Z := drop 1 v.
Definition kept_list (s : seen) : list (list Z) := match n_kept s with Some v => [v] | None => [] end.
Fixpoint m_calls {O R} (ops : list (@m_op O)) (rs : list (@m_res R)) : list (O * R) :=
  match ops, rs with
  | MApp o :: ops, MRApp r :: rs => (o, r) :: m_calls ops rs
  | _ :: ops, _ :: rs => m_calls ops rs
  | _, _ => []
  end.

(** Blocks held *)
Fixpoint blocks (l : list out) (n : Z) : option Z :=
  match l with
  | [] => Some n
  | OAlloc _ true :: l => blocks l (n + 1)
  | OFree :: l => if n =? 0 then None else blocks l (n - 1)
  | _ :: l => blocks l n
  end.

(** What the BLE stack and the heap answer: an MTU is at least 23 and an u16; a block has the size asked for. *)
Definition n_env_ok (e : n_env) : Prop :=
  forall mtu, ne_mtu e = Some mtu -> 23 <= mtu < 65536 /\ forall b, ne_mem e = Some b -> zlen b = mtu - 3.
Definition m_fine {O} (fine : O -> Prop) (o : @m_op O) : Prop :=
  match o with
  | MGone _ => True
  | MRead _ _ _ off => 0 <= off
  | MWrite _ e _ _ off v => n_env_ok e /\ bytes v
  | MSent _ e => n_env_ok e
  | MTimer l => Forall (fun x => n_env_ok (snd x)) l
  | MApp o => fine o
  end.
Definition m_played {A O R} (dev : device A O R) (ops ops1 : list (@m_op O)) (a : A) : Prop :=
  exists ops2, ops = ops1 ++ ops2 /\ (ops2 = [] \/ exists o r, ops2 = MApp o :: r /\ spec dev a o = None).

(** ** What keeps the stream going: a notification whose event is still to come, or the timer.  [p_asked]: the
    subscriber has turned streaming on since it subscribed. *)
Record pulse := mk_pl { p_asked : bool; p_air : Z; p_timer : bool }.
Definition timer_after (t : bool) (l : list out) : bool := fold_left (fun t o => match o with OStart => true | OStop => false | _ => t end) l t.
Definition sub_is (s : seen) (c : Z) : bool := match n_sub s with Some c' => c' =? c | None => false end.
Definition pulse_after {O} (s : seen) (p : pulse) (o : @m_op O) (l : list out) : pulse :=
  mk_pl (match o with
         | MWrite true _ c h off v =>
             if status_of s c h off v =? 0 then
               match h, v with HChunk, b :: _ => b =? 1 | HCccd, lo :: _ => if Z.odd lo then p_asked p else false | _, _ => p_asked p end
             else p_asked p
         | MGone c => if sub_is s c then false else p_asked p
         | _ => p_asked p
         end)
        (match o with
         | MSent c _ => if sub_is s c then Z.max 0 (p_air p - 1) else p_air p
         | MGone c => if sub_is s c then 0 else p_air p
         | _ => p_air p
         end + zlen (sent_values l))
        (timer_after (match o with MTimer _ => false | _ => p_timer p end) l).
(** Where that works: the MTU is known; the connections given to the timer's callback include the subscriber;
    no connection but the subscriber's ends. *)
Definition steady {O} (s : seen) (o : @m_op O) : Prop :=
  match o with
  | MGone c => n_sub s = Some c
  | MWrite _ e _ _ _ _ | MSent _ e => ne_mtu e <> None
  | MTimer l => (forall c, n_sub s = Some c -> In c (map fst l)) /\ Forall (fun x => ne_mtu (snd x) <> None) l
  | _ => True
  end.
(** A history: what is seen and what keeps it going at the end, and whether it was steady throughout *)
Inductive story (mc : m_cfg) {O R} : seen -> pulse -> list (@m_op O) -> list (@m_res R) -> seen -> pulse -> Prop -> Prop :=
| S_end s p : story mc s p [] [] s p True
| S_app s p o r ops rs s' p' k : story mc s p ops rs s' p' k -> story mc s p (MApp o :: ops) (MRApp r :: rs) s' p' k
| S_op s p o l s1 ops rs s' p' k : answers mc s o l s1 -> story mc s1 (pulse_after s p o l) ops rs s' p' k ->
    story mc s p (o :: ops) (MROut l :: rs) s' p' (steady s o /\ k).
Definition pulse_boot : pulse := mk_pl false 0 false.
