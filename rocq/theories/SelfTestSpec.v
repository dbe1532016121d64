(** What the self test is for, without its code: what a device must be like for each test to pass. *)
From Coq Require Import String.
From Verif Require Import Base Reboot RebootSpec StorageTest SelfTest.

Definition letters : list Z := str "abcdefghijklmnopqrstuvwxyzABCDEFGHIJKLMNOPQRSTUVWXYZ0123456789".
Definition serial_char (c : Z) : Prop := In c (letters ++ str "_-")%list.
Definition type_char (c : Z) : Prop := In c (letters ++ str "_-.+:")%list.
(** printable ASCII *)
Definition version_char (c : Z) : Prop := 32 <= c <= 126.

(** A string of 1 to [max] of these characters. *)
Definition text (max : Z) (ok : Z -> Prop) (s : option (list Z)) : Prop :=
  exists t rest, s = Some (t ++ 0 :: rest)%list /\ 1 <= zlen t <= max /\ Forall ok t.
(** A string that ends, or memory in which more than [max] characters can be read. *)
Definition readable (max : Z) (s : option (list Z)) : Prop :=
  forall mem, s = Some mem -> In 0 mem \/ max < zlen mem.

Definition field_good (max : Z) (e : env) (bit : Z) : Prop :=
  (bit = 0 -> text max serial_char (e_serial e)) /\ (bit = 1 -> text max type_char (e_swt e)) /\
  (bit = 2 -> text max version_char (e_swv e)) /\ (bit = 3 -> text max type_char (e_hw e)) /\
  (bit = 4 -> e_id_type e = 2 \/ e_id_type e = 3).

Inductive test := DeviceInfo | ComponentBoot | Regions | Export | RebootTest | RebootVerify | PlatformTime | Storage | Capacity.
Definition bit_of (t : test) : Z :=
  match t with
  | DeviceInfo => 0 | ComponentBoot => 1 | Regions => 2 | Export => 3 | RebootTest => 4
  | RebootVerify => 5 | PlatformTime => 6 | Storage => 7 | Capacity => 8
  end.
Definition selected (flags : Z) (t : test) : Prop := Z.testbit flags (bit_of t) = true.
Definition default_tests (t : test) : Prop :=
  match t with DeviceInfo | ComponentBoot | Regions | Export | PlatformTime | Capacity => True | _ => False end.

(** The reason kept for the next boot. *)
Definition kept (r : rt) : option Z := k_first (recall (rt_mem r)).

Section P.
Context {S : Type} (p : port S) (valid : S -> bool).
Definition storage_passes (s : S) : Prop :=
  exists t s' t' s'', st_begin p s = Some (true, t, s') /\ st_finish p t s' = (true, t', s'').
Definition passes (max : Z) (storage : bool) (e : env) (w : world S) (t : test) : Prop :=
  match t with
  | DeviceInfo => forall bit, 0 <= bit < 5 -> field_good max e bit
  | ComponentBoot => e_events e = true /\ e_log e = true /\ e_trace e = true /\
                     rt_ptr (w_rt w) = true /\ i_magic (rt_mem (w_rt w)) = 0x21544252
  | Regions => e_regions e = true /\ e_num e <> 0
  | Export | RebootTest => True
  | RebootVerify => exists reason, rt_data (w_rt w) = Some (reason, 11)
  | PlatformTime => 0 < e_t0 e < e_t1 e /\ exists secs, e_now e = Some (1, secs) /\ 1706486400 <= secs
  | Storage => storage = true /\ valid (w_st w) = false /\ e_off e = true /\ storage_passes (w_st w)
  | Capacity => e_fits e = true
  end.
(** The environment is one C could give: strings that can be read, a build id that can be read,
    unsigned times, and a storage test that ends. *)
Definition sane (max : Z) (e : env) (w : world S) : Prop :=
  0 <= max /\ readable max (e_serial e) /\ readable max (e_hw e) /\ readable max (e_swv e) /\ readable max (e_swt e) /\
  (e_id_type e = 3 -> 20 <= zlen (e_id_mem e)) /\
  (e_id_type e = 2 -> exists name id rest, e_id_mem e = (name ++ id ++ rest)%list /\ zlen id = 20 /\
     exists n, read_at (e_id_mem e) 0 4 = Some n /\ zlen name = 12 + fold_right (fun b n => b + 256 * n) 0 n) /\
  0 <= e_t0 e /\ st_begin p (w_st w) <> None.
End P.
