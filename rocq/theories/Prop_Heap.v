(** Property C92: the byte buffers of the CRC and AES code are never released (src/utilities, includes/crc.hpp, src/opprf).
    [history_h] is [history] with the buffers passed along, latest first; [allocator] says that a block handed out is not in use;
    [found m bs]: some block of [m] begins with the bytes [bs]. *)
From Coq Require Import ZArith Bool List Lia.
From Verif Require Import Outcome FieldModel CurveParams EccModel DmeModel SpecDme OtModel SpecOt CrcModel SpecCrc AesModel SpecAes OpprfModel SpecOpprf.
From Verif Require Import HeapModel SpecHeap HeapProofs HeapProofs2 OpprfCase OpprfCase2 Prop_Aes.
Import ListNotations.
Open Scope Z_scope.

(** The buffers change no result: any history of calls gives what it gives without them, faults included, whatever the allocator does. *)
Theorem C92_values : forall alloc e iv dbg live l SC m,
  value (history_h alloc e iv dbg live l SC m) = history dbg live e iv l SC.
Proof. exact L_C92_values. Qed.
Print Assumptions C92_values.

(** C92. What an encryption leaves: the key once, the plaintext with its checksum twice. *)
Theorem C92_encrypt : forall alloc, allocator alloc -> forall e iv k p m c m', encryptCRC_h alloc e iv k p m = Ok (c, m') ->
  exists msg t a1 a2 a3, appendCRC (big_endian_host e) (room e) (heap e) p = Ok msg /\ length t = 4%nat /\ getRawMpz msg = getRawMpz p ++ t /\
    m' = [mkcell a3 (getRawMpz k); mkcell a2 (getRawMpz msg); mkcell a1 (getRawMpz msg)] ++ m.
Proof. exact enc_leaves. Qed.
Print Assumptions C92_encrypt.

(** What a decryption leaves: the ciphertext, the key and what it decrypts to, the latter twice if the check succeeds. *)
Theorem C92_decrypt : forall alloc, forall e iv k c m r m', decryptCRC_h alloc e iv k c m = Ok (r, m') ->
  exists x ok a1 a2 a3 a4, decrypt e iv c k = Ok x /\ validateCRC (big_endian_host e) (heap e) x = Ok ok /\
    m' = (if ok then [mkcell a4 (getRawMpz x)] else []) ++ [mkcell a3 (getRawMpz x); mkcell a2 (getRawMpz k); mkcell a1 (getRawMpz c)] ++ m /\
    if ok then removeCRC x = Ok r else r = 0.
Proof. exact dec_leaves. Qed.
Print Assumptions C92_decrypt.

(** No call releases or changes a block that was there before it; prepareKeysAndInputs leaves 270 blocks, sendEncryptedMasks 9, a
    round below the sixteenth and unmaskResult at least 4 each. *)
Theorem C92_kept : forall alloc, allocator alloc -> forall e iv dbg live l SC m SC' m', history_h alloc e iv dbg live l SC m = Ok (SC', m') ->
  exists new, m' = new ++ m /\ (fold_right (fun v n => (blocks v + n)%nat) 0%nat l <= length new)%nat /\
    (Forall of_server l -> length new = fold_right (fun v n => (blocks v + n)%nat) 0%nat l).
Proof. exact L_C92_kept. Qed.
Print Assumptions C92_kept.

(** After prepareKeysAndInputs and whatever calls follow it, clean() included, the bytes of all 48 keys are in memory. *)
Theorem C92_server_keys : forall alloc, allocator alloc -> forall e iv dbg live d l S C m SC' m', k_lt S = [] -> k_eq S = [] -> k_gt S = [] ->
  history_h alloc e iv dbg live (EPrepare d :: l) (S, C) m = Ok (SC', m') ->
  forall s j, (j < 16)%nat -> found m' (getRawMpz (level_key d s j)).
Proof. exact L_C92_server. Qed.
Print Assumptions C92_server_keys.

(** The memory of a server that prepares and cleans again and again grows without bound: every such run succeeds, empties the lists of
    keys, and leaves 270 blocks each time, in which all the keys are. *)
Theorem C92_unbounded : forall alloc, allocator alloc -> forall e iv dbg live ds S C a m, aes_ready e iv -> server_ready live S a ->
  (forall d g s j, In (d, g) ds -> (j < 16)%nat -> 2 ^ 120 <= level_key d s j < 2 ^ 128) ->
  exists S' new, history_h alloc e iv dbg live (flat_map (fun p => [EPrepare (fst p); ECleanServer (snd p)]) ds) (S, C) m = Ok ((S', C), new ++ m) /\
    (k_lt S' = [] /\ k_eq S' = [] /\ k_gt S' = [] /\ ok S' = []) /\ length new = (270 * length ds)%nat /\
    forall d g s j, In (d, g) ds -> (j < 16)%nat -> found (new ++ m) (getRawMpz (level_key d s j)).
Proof. exact L_C92_rounds. Qed.
Print Assumptions C92_unbounded.

(** The client: after a round below the sixteenth the key it had and the key it found are in memory, and stay there. *)
Theorem C92_client_keys : forall alloc, allocator alloc -> forall e iv dbg live r c l S C m SC1 m1 SC' m', block_cipher (block e) -> r <> 16 ->
  happens_h alloc e iv dbg live (S, C) (EFinish r c) m = Ok (SC1, m1) -> history_h alloc e iv dbg live l SC1 m1 = Ok (SC', m') ->
  found m' (getRawMpz (key C)) /\ found m' (getRawMpz (key (snd SC1))).
Proof. exact L_C92_client. Qed.
Print Assumptions C92_client_keys.

(** The buffers of one encryption and of the decryption of its result *)
Example C92_case_encrypt : exists c m, encryptCRC_h bump small iv0 kB kA [] = Ok (c, m) /\ c = cBA /\
  map (fun x => (caddr x, Z.of_nat (length (cbytes x)))) m = [(3, 16); (2, 20); (1, 20)] /\ map cbytes (firstn 1 m) = [getRawMpz kB].
Proof. do 2 eexists. split; [vm_compute; reflexivity|]. vm_compute. split; [reflexivity|]. split; reflexivity. Qed.
Example C92_case_decrypt : exists m, decryptCRC_h bump small iv0 kB cBA [] = Ok (kA, m) /\
  map (fun x => Z.of_nat (length (cbytes x))) m = [20; 20; 16; 20] /\ found m (getRawMpz kA).
Proof.
  eexists. split; [vm_compute; reflexivity|]. split; [reflexivity|]. eexists. eexists. split; [left; reflexivity|]. cbn [cbytes]. vm_compute. reflexivity.
Qed.
(** with another key the check fails: one block less, and the result is 0 *)
Example C92_case_wrong : exists m, decryptCRC_h bump small iv0 kA cBA [] = Ok (0, m) /\ length m = 3%nat.
Proof. eexists. split; [vm_compute; reflexivity|]. reflexivity. Qed.
(** a server that prepares and cleans [n] times *)
Example C92_case_server : forall dbg live c0 c1 C n, live c0 = true -> live c1 = true ->
  exists D Q S0 S S' m, dme_new dbg live c0 dec 2 1 1 0 = Ok D /\ getRandomPoint dbg live CV (Some c0) 3 = Ok Q /\
    server_new dbg live c1 9 (dcrs D) 1 = Ok S0 /\ setSecret dbg live S0 Q = Ok (S, set_curve Q (Some c1)) /\
    history_h bump small iv0 dbg live (flat_map (fun p => [EPrepare (fst p); ECleanServer (snd p)]) (repeat (case_prep, 1) n)) (S, C) [] = Ok ((S', C), m) /\
    k_eq S' = [] /\ length m = (270 * n)%nat /\ (n <> 0%nat -> found m (getRawMpz kB)).
Proof.
  intros dbg live c0 c1 C n L0 L1. destruct (case2_crs dbg live c0 L0) as [D [ED [FI LG]]]. destruct (case_world dbg live c0 c1 D L0 L1 FI) as [Q [S0 [S [EQ [E0 [E1 [SR _]]]]]]].
  destruct (L_C92_rounds bump bump_ok small iv0 dbg live (repeat (case_prep, 1) n) S C 3 [] case_aes SR) as [S' [new [H [[_ [K _]] [LN F]]]]].
  - intros d g s j I J. apply repeat_spec in I. injection I as -> _. exact (case_keys case_draws eq_refl s j J).
  - rewrite app_nil_r in H, F. exists D, Q, S0, S, S', new. split; [exact ED|]. split; [exact EQ|]. split; [exact E0|]. split; [exact E1|]. split; [exact H|]. split; [exact K|].
    split; [rewrite LN, repeat_length; reflexivity|]. intros N. apply (F case_prep 1 Eq 0%nat); [|lia]. destruct n; [contradiction|left; reflexivity].
Qed.
