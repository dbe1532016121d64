(** C117: the root certificates the Zephyr port installs and requires. *)
From Coq Require Import ZArith List Bool Lia.
From Verif Require Import Base RootCerts RootCertsSpec RootCertsProofs.
Import ListNotations.
Open Scope Z_scope.

(** Modem storage, certificates as text, from any content of the modem and for any errors of its
    calls: the installer either ends with 0 and all three certificates are there, or with 1 at one
    of them, with those before it in place and those after it untouched. Credentials of others are
    never touched. Nothing is read outside of a certificate. *)
Theorem C117_modem g2 am ca cg cam cc s : pem g2 cg -> pem am cam -> pem ca cc ->
  exists rv s', install_root_certs nrf_add nrf_remove (mk_cert_set cg cam cc) s = Some (rv, s') /\
    outcome (ce_at s) s' g2 am ca rv /\
    (forall j, ~ ours j -> j <> deprecated -> ce_at s' j = ce_at s j) /\
    (ce_errs s = [] -> rv = 0 /\ ce_at s' deprecated = None).
Proof.
  intros P1 P2 P3. destruct (nrf_install g2 am ca cg cam cc s P1 P2 P3) as (rv & s' & A & B & C & D & E & _).
  exists rv, s'. split; [exact A|]. split; [exact B|]. split; [exact C|].
  intro Z. destruct (E Z) as [-> _]. split; [reflexivity|]. unfold deprecated. rewrite D.
  destruct (nrf_remove_ok s 1004) as (_ & _ & _ & R & _). now destruct (R Z).
Qed.
Print Assumptions C117_modem.

(** Installing again when all is in place, without errors, writes and deletes nothing. *)
Theorem C117_no_rewrite g2 am ca cg cam cc s : pem g2 cg -> pem am cam -> pem ca cc ->
  ce_errs s = [] -> holds_all s g2 am ca -> ce_at s deprecated = None ->
  exists s' ops, install_root_certs nrf_add nrf_remove (mk_cert_set cg cam cc) s = Some (0, s') /\
    (forall j, ce_at s' j = ce_at s j) /\
    ce_ops s' = ce_ops s ++ ops /\ filter changes ops = [].
Proof.
  intros P1 P2 P3 Z H N. destruct (nrf_install g2 am ca cg cam cc s P1 P2 P3) as (rv & s' & A & _ & _ & D & E & F).
  destruct (E Z) as [-> _]. destruct (F Z H) as [G O].
  destruct (nrf_remove_ok s 1004) as (_ & _ & _ & R & Q). destruct (R Z) as (R1 & _ & _).
  unfold deprecated in *. rewrite (Q Z N) in O.
  eexists s', _. split; [exact A|]. split.
  { intro j. destruct (Z.eq_dec j 1004) as [->|J]; [congruence|now apply G]. }
  split; [rewrite O, <- app_assoc; reflexivity|reflexivity].
Qed.
Print Assumptions C117_no_rewrite.

(** Removing: with result 0 the identifier is free; no other is touched. *)
Theorem C117_remove s id :
  (fst (nrf_remove s id) = 0 -> ce_at (snd (nrf_remove s id)) id = None) /\
  (ce_errs s = [] -> fst (nrf_remove s id) = 0) /\
  (forall j, j <> id -> ce_at (snd (nrf_remove s id)) j = ce_at s j).
Proof.
  destruct (nrf_remove_ok s id) as (A & _ & B & C & _).
  split; [exact B|]. split; [|exact A]. intro Z. now destruct (C Z).
Qed.
Print Assumptions C117_remove.

(** Zephyr's TLS credentials: the same, with the whole arrays; it works exactly when the three
    identifiers are free. *)
Theorem C117_tls cs s :
  exists rv s', install_root_certs tls_add tls_remove cs s = Some (rv, s') /\
    outcome (ce_at s) s' (cs_g2 cs) (cs_amazon cs) (cs_ca cs) rv /\
    (rv = 0 -> forall id, ours id -> ce_at s id = None) /\
    (forall j, ~ ours j -> ce_at s' j = ce_at s j) /\
    (ce_errs s = [] -> (forall id, ours id -> ce_at s id = None) -> rv = 0).
Proof. exact (tls_install cs s). Qed.
Print Assumptions C117_tls.

(** A TLS socket that was configured with result 0 verifies its peer, against the host name, and
    with exactly the identifiers that are installed; otherwise the result is that of the option that
    failed, and no option was set after it. *)
Theorem C117_socket der host rcs rv opts : configure_tls der host rcs = (rv, opts) ->
  (rv = 0 -> secure host opts /\ (der = true -> In NoCopy opts)) /\
  (rv <> 0 -> exists n, nth_error rcs n = Some rv /\ length opts = S n /\
     forall m, (m < n)%nat -> nth_error rcs m = Some 0).
Proof. exact (configure_ok der host rcs rv opts). Qed.
Print Assumptions C117_socket.

(** http.h:25 "0 on success, else error code": never an error code, since [prv_install_cert]
    returns [bool]: every failure is 1. *)
Theorem C117_error_code_refuted : forall e, e <> 0 -> exists s cs s',
  ce_errs s = [0; e] /\ nrf_add s 1001 (cs_g2 cs) (zlen (cs_g2 cs)) = Some (e, s') /\
  exists s2, install_root_certs nrf_add nrf_remove cs (mk_certs (ce_at s) [] (0 :: ce_errs s)) = Some (1, s2).
Proof.
  intros e E.
  exists (mk_certs (fun _ => None) [] [0; e]), (mk_cert_set [65; 0] [66; 0] [67; 0]).
  destruct e as [|e|e]; [congruence| |]; eexists; (split; [reflexivity|]); (split; [reflexivity|]);
    eexists; reflexivity.
Qed.
Print Assumptions C117_error_code_refuted.

(** root_cert_storage.h:39 "0 on success or if the cert was already loaded": not with the TLS
    credentials; whatever is installed, installing it again fails. *)
Theorem C117_twice_refuted : forall cs s s', ce_errs s = [] ->
  install_root_certs tls_add tls_remove cs s = Some (0, s') ->
  exists s2, install_root_certs tls_add tls_remove cs s' = Some (1, s2).
Proof.
  intros cs s s' Z H. destruct (tls_install cs s) as (rv & s1 & A & B & _).
  rewrite A in H. inv H. destruct B as [(_ & B & _)|(? & _)]; [|discriminate].
  destruct (tls_install cs s') as (r2 & s2 & A2 & B2 & C2 & _).
  exists s2. rewrite A2. destruct B2 as [(-> & _)|(-> & _)]; [|reflexivity].
  assert (ours 1001) by (unfold ours; lia). rewrite (C2 eq_refl 1001) in B by assumption. discriminate.
Qed.
Print Assumptions C117_twice_refuted.

(** root_cert_storage.h:42-46 "Remove specified certificate": the TLS storage gives 0 and keeps it. *)
Theorem C117_tls_remove_refuted : forall s id, tls_remove s id = (0, s).
Proof. reflexivity. Qed.
Print Assumptions C117_tls_remove_refuted.

(** In DER format (binary, with zeros) the modem storage keeps only the part before the first zero
    and gives 0; Kconfig allows this combination when the sockets are not offloaded. *)
Theorem C117_der_refuted : exists cert s s',
  nrf_add s 1001 cert (zlen cert) = Some (0, s') /\ ce_at s' 1001 = Some (take 5 cert) /\ zlen cert = 8.
Proof.
  exists [48; 130; 3; 175; 48; 0; 2; 151], (mk_certs (fun _ => None) [] []). eexists.
  split; [reflexivity|]. split; reflexivity.
Qed.
Print Assumptions C117_der_refuted.

(** A modem with an old certificate at 1002, the duplicate at 1004, one of the application at 42, and
    a write of the third that fails. *)
Example C117_case :
  let s := mk_certs (fun id => if id =? 1002 then Some [9] else if id =? 1004 then Some [8]
                               else if id =? 42 then Some [7] else None)
                    [] [0; 0; 0; 0; 0; 0; 0; 0; -5] in
  exists s', install_root_certs nrf_add nrf_remove (mk_cert_set [65; 0] [66; 66; 0] [67; 0]) s = Some (1, s') /\
    map (ce_at s') [42; 1001; 1002; 1003; 1004] = [Some [7]; Some [65]; Some [66; 66]; None; None].
Proof. eexists. split; reflexivity. Qed.

Example C117_socket_case :
  configure_tls true [104] [0; 0; -22; 0] = (-22, [TagList [1001; 1002; 1003]; PeerVerify 2; NoCopy]).
Proof. reflexivity. Qed.
