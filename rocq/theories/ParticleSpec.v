(** Specification of the Particle port: what is published when, and what the cloud makes of it. *)
From Verif Require Import Base Base64Spec Packetizer Uplink UplinkSpec Particle.

(** What can be told from outside: the cloud connection, and the time of the last look for data. *)
Record p_seen := mk_ps { s_conn : bool; s_at : Z }.
Definition p_start : p_seen := mk_ps false 0.

(** Nothing without a connection, nothing sooner than a second after the last look (2^32 ms later the 32 bit
    clock says so too); at most one event per call, with at most as many characters as allowed. *)
Inductive p_answers {O} : p_seen -> @p_op O -> list p_out -> p_seen -> Prop :=
| PA_cloud s c : p_answers s (PtCloud true c) [] (mk_ps c (s_at s))
| PA_other s c : p_answers s (PtCloud false c) [] s
| PA_off s e : s_conn s = false -> p_answers s (PtProcess e) [] s
| PA_soon s e : s_conn s = true -> pe_t1 e - s_at s < 1000 \/ 2 ^ 32 <= pe_t1 e - s_at s -> p_answers s (PtProcess e) [] s
| PA_idle s e : s_conn s = true -> 1000 <= pe_t1 e - s_at s -> p_answers s (PtProcess e) [] (mk_ps true (pe_t2 e))
| PA_nomem s e : s_conn s = true -> 1000 <= pe_t1 e - s_at s -> pe_mem e = None ->
    p_answers s (PtProcess e) [PAlloc (pe_max e + 1) false] (mk_ps true (pe_t2 e))
| PA_sent s e text : s_conn s = true -> 1000 <= pe_t1 e - s_at s -> 0 < zlen text <= pe_max e ->
    p_answers s (PtProcess e) [PAlloc (pe_max e + 1) true; PPublish text (pe_pub e); PFree] (mk_ps true (pe_t2 e)).
Inductive p_story {O R} : p_seen -> list (@p_op O) -> list (@p_res R) -> p_seen -> Prop :=
| PS_end s : p_story s [] [] s
| PS_app s o r ops rs s' : p_story s ops rs s' -> p_story s (PtApp o :: ops) (PtRApp r :: rs) s'
| PS_op s o l s1 ops rs s' : p_answers s o l s1 -> p_story s1 ops rs s' -> p_story s (o :: ops) (PtOut l :: rs) s'.

(** The texts handed to Particle.publish(), those it took, and what they stand for. *)
Definition p_outs {R} (rs : list (@p_res R)) : list p_out := flat_map (fun r => match r with PtOut l => l | PtRApp _ => [] end) rs.
Definition texts (l : list p_out) : list (list Z) := flat_map (fun o => match o with PPublish t _ => [t] | _ => [] end) l.
Definition taken (l : list p_out) : list (list Z) := flat_map (fun o => match o with PPublish t true => [t] | _ => [] end) l.
Definition stand_for (ts cs : list (list Z)) : Prop := Forall2 (fun t c => b64_decode t = Some c) ts cs.
Fixpoint p_calls {O R} (ops : list (@p_op O)) (rs : list (@p_res R)) : list (O * R) :=
  match ops, rs with
  | PtApp o :: ops, PtRApp r :: rs => (o, r) :: p_calls ops rs
  | _ :: ops, _ :: rs => p_calls ops rs
  | _, _ => []
  end.

(** The environment: time goes on, a block has the size asked for; sizes whose remainder by 4 is 0 or 1. *)
Definition p_mem_ok (e : p_env) : Prop := forall b, pe_mem e = Some b -> bytes b /\ zlen b = pe_max e + 1.
Definition p_size_ok (n : Z) : Prop := 12 <= n < 2 ^ 30 /\ n mod 4 <= 1.
Definition p_fine {O} (fine : O -> Prop) (o : @p_op O) : Prop :=
  match o with
  | PtCloud _ _ => True
  | PtProcess e => p_mem_ok e /\ p_size_ok (pe_max e)
  | PtApp o => fine o
  end.
Fixpoint in_time {O} (now : Z) (ops : list (@p_op O)) : Prop :=
  match ops with
  | [] => True
  | PtProcess e :: r => now <= pe_t1 e <= pe_t2 e /\ in_time (pe_t2 e) r
  | _ :: r => in_time now r
  end.
Definition p_played {A O R} (dev : device A O R) (ops ops1 : list (@p_op O)) (a : A) : Prop :=
  exists ops2, ops = ops1 ++ ops2 /\ (ops2 = [] \/ exists o r, ops2 = PtApp o :: r /\ spec dev a o = None).
