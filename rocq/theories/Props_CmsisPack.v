(** C127: the CMSIS-Pack of the SDK. *)
From Coq Require Import String.
From Verif Require Import Base EclipsePatch EclipsePatchSpec CmsisPack CmsisPackSpec CmsisPackProofs.
Open Scope string_scope.
Open Scope list_scope.
Open Scope Z_scope.

(** The description lists the include directories and then, directory by directory, exactly the C files in directories of
    the components and below the port, by their paths in the SDK, each once; and every file listed is in the pack. *)
Theorem C127_files e : penv_ok e ->
  exists parts, pdsc_files e = Some ([str "components/include/"; str "ports/include/"] ++ concat parts) /\ Forall2 (part_ok e) (asked e) parts /\
    forall n, In n (concat parts) -> exists r, In r (pack e) /\ 47 :: n = slashed r.
Proof.
  intros O. destruct (files_listed e O) as (parts & A & B). exists parts. split; [exact A|]. split; [exact B|].
  intros n I. apply in_concat in I as (l & L & I). destruct (Forall2_in_r _ _ _ _ B L) as (a & Ia & Pa). exact (listed_packed e a l n Ia Pa I).
Qed.
Print Assumptions C127_files.

(** As long as the server never says that there is no file and the variable is not set: the releases are, newest first, those
    of the runs that did not fail and those published before. *)
Theorem C127_releases runs published : Forall (fun r => snd (fst r) <> 404 /\ snd r = false) runs ->
  publish runs published = rev (map (fun r => fst (fst r)) (filter (fun r => negb ((400 <=? snd (fst r)) && (snd (fst r) <? 600))) runs)) ++ published.
Proof. apply publish_ok. Qed.
Print Assumptions C127_releases.

(** One answer 404, with the variable unset, and all earlier releases are gone; the same if the variable is set, whatever the
    answer.  (The comment asks for both.) *)
Theorem C127_history_refuted v published status : publish [(v, 404, false)] published = [v] /\ publish [(v, status, true)] published = [v].
Proof. unfold publish, releases, latest. rewrite orb_true_r. auto. Qed.
Print Assumptions C127_history_refuted.

(** Made twice, a release is listed twice. *)
Theorem C127_once_refuted v published : publish [(v, 200, false); (v, 200, false)] published = v :: v :: published.
Proof. reflexivity. Qed.
Print Assumptions C127_once_refuted.

(** A pack with a port; a failed run and two that did not fail. *)
Example C127_case :
  let sdk := [str "w"; str "sdk"] in
  let e := mk_penv sdk [str "core"] (Some [str "dialog"; str "da145xx"])
    [sdk ++ [str "components"; str "core"; str "src"; str "b.c"]; sdk ++ [str "README.md"]; sdk ++ [str "components"; str "core"; str "src"; str "a.c"];
     sdk ++ [str "ports"; str "dialog"; str "da145xx"; str "p.c"]; sdk ++ [str "tests"; str "t.c"]] in
  pdsc_files e = Some [str "components/include/"; str "ports/include/"; str "components/core/src/b.c"; str "components/core/src/a.c"; str "ports/dialog/da145xx/p.c"] /\
  List.length (pack e) = 4%nat /\ publish [(str "1.1", 200, false); (str "1.2", 503, false); (str "1.3", 200, false)] [str "1.0"] = [str "1.3"; str "1.1"; str "1.0"].
Proof. vm_compute. auto. Qed.
