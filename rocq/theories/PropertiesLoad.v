(** PropertiesLoad.v: what becomes of every stored file (C75). The vocabulary is in LoadSpec.v and JsonValueSpec.v. *)
From Coq Require Import String NArith ZArith List.
From Verif Require Import Base Ecc Keys Messages SessionState SessionRecord Group PreKeyRecords Json JsonSpec JsonValueSpec JsonRecords LoadSpec LoadProofs.
Import ListNotations.
Open Scope list_scope.

(** Session records: every file has one fate, and the loader returns the record, the error or the panic that belongs to it. *)
Theorem C75_session_file : forall s f, session_file s f <-> load_session s = result f.
Proof. exact (file_exact _ _ _ session_sound session_total). Qed.
Theorem C75_session_file_total : forall s, exists f, session_file s f.
Proof. exact session_total. Qed.

(** Sender key records of groups. *)
Theorem C75_sender_key_file : forall s f, sender_file s f <-> load_sender_key s = result f.
Proof. exact (file_exact _ _ _ sender_sound sender_total). Qed.
Theorem C75_sender_key_file_total : forall s, exists f, sender_file s f.
Proof. exact sender_total. Qed.

(** Prekeys and signed prekeys: no file crashes the loader, and whatever has the right members is taken for a key. *)
Theorem C75_prekey_file : forall s,
  (prekey_file s Unreadable /\ load_prekey s = Err EDecode) \/
  exists id p k r, prekey_file s (Loads (id, p, k)) /\ load_prekey s = Ok r /\ pkr_id r = ou_some id /\ kr_pair r = {| kp_pub := p; kp_priv := Some k |}.
Proof.
  intros s. destruct (prekey_total s) as (f & F). pose proof (prekey_sound s f F) as S. destruct f as [[[id p] k]| | |]; [|destruct S| |destruct S].
  - right. destruct S as (r & S1 & S2 & S3). exists id, p, k, r. split; [exact F|]. split; [exact S1|]. split; assumption.
  - left. split; assumption.
Qed.
Theorem C75_signed_prekey_file : forall s,
  (signed_prekey_file s Unreadable /\ load_signed_prekey s = Err EDecode) \/
  exists id p k g time r, signed_prekey_file s (Loads (id, p, k, g, time)) /\ load_signed_prekey s = Ok r /\ zs_id (zr_struct r) = id /\ zs_time (zr_struct r) = time /\
    zr_pair r = {| kp_pub := p; kp_priv := Some k |} /\ zr_sig r = g.
Proof.
  intros s. destruct (signed_prekey_total s) as (f & F). pose proof (signed_prekey_sound s f F) as S. destruct f as [[[[[id p] k] g] time]| | |]; [|destruct S| |destruct S].
  - right. destruct S as (r & S1 & S2 & S3 & S4 & S5). exists id, p, k, g, time, r. split; [exact F|]. split; [exact S1|]. split; [exact S2|]. split; [exact S3|]. split; assumption.
  - left. split; assumption.
Qed.
Theorem C75_prekey_files_never_crash : forall s, load_prekey s <> Panic /\ load_signed_prekey s <> Panic.
Proof.
  intros s. split.
  - destruct (C75_prekey_file s) as [(_ & ->)|(id & p & k & r & _ & -> & _)]; discriminate.
  - destruct (C75_signed_prekey_file s) as [(_ & ->)|(id & p & k & g & t & r & _ & -> & _)]; discriminate.
Qed.

(** One file of each kind. *)
Definition file (li keys : string) : bytes :=
  str ("{""SessionState"":{""LocalIdentityPublic"":""" ++ li ++ """,""RemoteIdentityPublic"":""BQ=="",""SenderBaseKey"":""BQ=="",""SenderChain"":{""SenderRatchetKeyPublic"":""BQE="",""ChainKey"":{""Index"":3},""MessageKeys"":"
    ++ keys ++ "}},""PreviousStates"":[]}")%string.
Example C75_loads : exists r, session_file (file "BQ==" "null") (Loads r) /\ option_map (fun c => ck_index (ch_key c)) (s_sender (r_cur r)) = Some 3%N.
Proof.
  assert (X : match load_session (file "BQ==" "null") with Ok r => option_map (fun c => ck_index (ch_key c)) (s_sender (r_cur r)) = Some 3%N | _ => False end) by (vm_compute; reflexivity).
  destruct (load_session (file "BQ==" "null")) as [r|e|] eqn:E; [|destruct X|destruct X]. exists r. split; [apply C75_session_file; exact E|exact X].
Qed.
Example C75_refused : session_file (file "Bg==" "null") Refused.
Proof. apply C75_session_file. vm_compute. reflexivity. Qed.
Example C75_crashes : session_file (file "BQ==" "[null]") Crashes /\ session_file (file "" "null") Crashes /\ session_file (str "{}") Crashes /\ session_file (str "null") Crashes.
Proof. repeat split; apply C75_session_file; vm_compute; reflexivity. Qed.
Example C75_unreadable : session_file (file "BQ==" "[3]") Unreadable /\ session_file (str "") Unreadable.
Proof. split; apply C75_session_file; vm_compute; reflexivity. Qed.
Example C75_senders : sender_file (str "{}") (Loads []) /\ sender_file (str "{""SenderKeyStates"":[{""SigningKeyPublic"":""BQ=="",""Keys"":[null],""SenderChainKey"":{}}]}") Crashes /\
  sender_file (str "{""SenderKeyStates"":[{""SigningKeyPublic"":""AA==""},null]}") Refused /\ sender_file (str "[]") Unreadable.
Proof. repeat split; apply C75_sender_key_file; vm_compute; reflexivity. Qed.
Example C75_prekey_text : match load_prekey (str "{""ID"":5,""PublicKey"":""AQ==""}") with Ok r => pkr_id r = ou_some 5 | _ => False end.
Proof. vm_compute. reflexivity. Qed.

Print Assumptions C75_session_file.
Print Assumptions C75_session_file_total.
Print Assumptions C75_sender_key_file.
Print Assumptions C75_sender_key_file_total.
Print Assumptions C75_prekey_file.
Print Assumptions C75_signed_prekey_file.
Print Assumptions C75_prekey_files_never_crash.
