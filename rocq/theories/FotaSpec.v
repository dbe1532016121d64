(** Specification of the firmware updates. *)
From Verif Require Import Base ZephyrHttp ZephyrOta ZephyrSock ZephyrSockSpec Fota.

(** ** MCUboot *)
(** The bytes the image writer accepted, in order *)
Definition accepted (a : list act) : list Z :=
  concat (map (fun x => match x with AWrite d 0 => d | _ => [] end) a).
(** The part of an image that fills whole blocks *)
Definition whole_blocks (blk : Z) (image : list Z) : list Z := take (zlen image / blk * blk) image.
(** All that was given to the image writer was accepted, then the upgrade was requested, the reset marked
    as a firmware update, and made. *)
Definition upgraded (a : list act) : Prop :=
  exists ds, a = AInit 0 :: map (fun d => AWrite d 0) ds ++ [ARequest 0; AMark 3; AReboot].

(** ** nRF Connect SDK *)
(** Before every start no download is running, and the library reports events of running downloads only. *)
Section Use.
Context (v : ncs) (o : os) (oc : o_cfg) (junk : list Z) (custom : bool) (lib : list dcall -> Z) (ealready : Z).
Fixpoint one_at_a_time (ops : list nop) (s : nst) (q : list dcall) (l : list ev) : Prop :=
  match ops with
  | [] => True
  | NStart n :: r =>
      ns_dl s = false /\
      forall rv s' q' l', ncs_start v o oc junk lib ealready n s q l = Some (rv, s', q', l') -> one_at_a_time r s' q' l'
  | NEvent e :: r =>
      ns_dl s = true /\
      forall s' q' l', ncs_event custom e s q l = (false, s', q', l') -> one_at_a_time r s' q' l'
  end.
End Use.
(** The library reports errors with negative numbers. *)
Definition lib_errors (lib : list dcall -> Z) : Prop := forall q, lib q <= 0.
(** With [url] on top of what [s] holds *)
Definition with_url (url : option (list Z)) (s : held) : held :=
  mk_held (d_fds s) (d_addrs s) (d_mem s + match url with Some _ => 1 | None => 0 end).
(** The requests for a download with one certificate after the other, with their answers: all but the last
    were refused with another answer than "already running". *)
Definition tried (u : list Z) (ealready : Z) (cs : list Z) (rvs : list Z) (calls : list dcall) : Prop :=
  calls = map (fun p => DGet u u [fst p] (snd p)) (combine cs rvs) /\
  (1 <= zlen rvs <= zlen cs) /\
  (forall x rv y, rvs = x ++ rv :: y -> y <> [] -> rv <> 0 /\ rv <> ealready) /\
  (zlen rvs < zlen cs -> exists x rv, rvs = x ++ [rv] /\ (rv = 0 \/ rv = ealready)).
(** The requests for the download of [u]: host and file are the parts before and after the first '/', or
    both the whole; with all certificates, or one after the other. *)
Definition requests (v : ncs) (u : list Z) (ealready : Z) (calls : list dcall) : Prop :=
  match v with
  | Downloader =>
      ~ In 47 u /\ calls = [] \/
      exists host file rv, u = host ++ 47 :: file /\ ~ In 47 host /\ calls = [DGet host file [1001; 1002; 1003] rv]
  | AnyCert => exists rv, calls = [DGet u u [1001; 1002; 1003] rv]
  | EachCert => exists rvs, tried u ealready [1001; 1002; 1003] rvs calls
  end.
