From Coq Require Import Lia.
From Verif Require Import Base BaseLemmas Crypt CryptSpec CryptProofs KeyBag KeyBagSpec KekProofs Volume VolumeSpec UnlockProofs.
Ltac Zify.zify_post_hook ::= Z.div_mod_to_equations.

Lemma firstn_app_le {A} (n : nat) (a b : list A) : (n <= length a)%nat -> firstn n (a ++ b) = firstn n a.
Proof. intros H. rewrite firstn_app. replace (n - length a)%nat with 0%nat by lia. rewrite firstn_O, app_nil_r. reflexivity. Qed.

Section Volume.
  Variables (enc dec : list Z -> list Z -> list Z) (sha : list Z -> list Z) (hmac : list Z -> list Z -> list Z).
  Hypothesis BC : forall key, bytes key -> len key = 16 \/ len key = 32 -> block_cipher (enc key) (dec key).
  Hypothesis HM : forall k d, bytes (hmac k d) /\ len (hmac k d) = 32.
  Hypothesis SH : forall d, len (sha d) = 32.

  Lemma record_read ms e k : record ms e k -> kek_read (be_data e) = Ok k /\ In (k_method k) ms /\ bytes (k_wrapped k) /\ len (k_wrapped k) = 40 /\ len (k_id k) = 16.
  Proof.
    intros ((it & ex & salt & E & K) & HI & HB). rewrite E, (kek_read_ok k it ex salt K). unfold kek_ok in K. tauto.
  Qed.
  Lemma try_closed e k p out : password_record e k -> closed_for enc hmac k p -> try_password dec hmac k p out = Ok None.
  Proof.
    intros (_ & R & Hi) C. apply record_read in R. destruct R as (_ & HI & HB & HL & _). destruct p as [p|]; [|reflexivity]. cbn [closed_for try_password] in *.
    apply (unlock_password_closed enc dec sha hmac BC HM SH); assumption.
  Qed.
  Lemma entry_closed_step e l user recovery out : entry_closed enc hmac user recovery e ->
    get_volume_key dec hmac (e :: l) user recovery out = get_volume_key dec hmac l user recovery out.
  Proof.
    intros [T|(k & R & C1 & C2)]; cbn [get_volume_key]; [replace (be_type e =? 3) with false by lia; reflexivity|].
    destruct R as (T & R & Hi). replace (be_type e =? 3) with true by lia. cbn [negb].
    destruct (record_read _ _ _ R) as (E & _). rewrite E. cbn [bind].
    rewrite (try_closed e k user out) by (try assumption; split; auto). cbn [bind].
    rewrite (try_closed e k recovery out) by (try assumption; split; auto). reflexivity.
  Qed.
  Lemma volume_key_ok before e after user recovery key out : Forall (entry_closed enc hmac user recovery) before ->
    entry_opens enc hmac user recovery e key -> len out = 32 ->
    get_volume_key dec hmac (before ++ e :: after) user recovery out = Ok (Some (key ++ skipn (length key) out)).
  Proof.
    intros F (k & R & O) HO. induction F as [|x l X F IH]; cbn [app]; [|rewrite entry_closed_step by exact X; exact IH].
    cbn [get_volume_key]. pose proof R as (T & RR & Hi). replace (be_type e =? 3) with true by lia. cbn [negb].
    destruct (record_read _ _ _ RR) as (E & HI & HB & HL & _). rewrite E. cbn [bind].
    destruct O as [(p & -> & P)|(C & p & -> & P)].
    - cbn [try_password]. rewrite (unlock_password_opens enc dec sha hmac BC HM SH k p key) by assumption. reflexivity.
    - rewrite (try_closed e k user out R C). cbn [bind try_password]. rewrite (unlock_password_opens enc dec sha hmac BC HM SH k p key) by assumption. reflexivity.
  Qed.
  Lemma volume_key_none l user recovery out : Forall (entry_closed enc hmac user recovery) l -> get_volume_key dec hmac l user recovery out = Ok None.
  Proof. induction 1 as [|x l X F IH]; [reflexivity|]. rewrite entry_closed_step by exact X. exact IH. Qed.

  Lemma key_opens_app k key j m : method_size (k_method k) <= len key -> key_opens enc sha k (key ++ j) m <-> key_opens enc sha k key m.
  Proof. intros H. unfold key_opens. rewrite firstn_app_le by (unfold len in H; lia). reflexivity. Qed.
  Lemma firstn_key n key j : bytes key -> n <= len key -> bytes (firstn (Z.to_nat n) (key ++ j)).
  Proof. intros B H. rewrite firstn_app_le by (unfold len in H; lia). apply bytes_firstn, B. Qed.
  Lemma key_closed_step e l id key j out : bytes key -> key_entry_closed enc sha id key e ->
    get_master_key dec sha (e :: l) id (key ++ j) out = get_master_key dec sha l id (key ++ j) out.
  Proof.
    intros HB [T|[I|(k & (T & I & R) & HK & C)]]; cbn [get_master_key]; [replace (be_type e =? 2) with false by lia; reflexivity|replace (list_eqb (be_id e) id) with false by (symmetry; apply list_eqb_neq, I); rewrite orb_true_r; reflexivity|].
    replace (be_type e =? 2) with true by lia. replace (list_eqb (be_id e) id) with true by (symmetry; apply list_eqb_eq, I). cbn [negb orb].
    destruct (record_read _ _ _ R) as (E & HI & HBw & HL & _). rewrite E. cbn [bind]. pose proof (len_nonneg j).
    rewrite (unlock_key_closed enc dec sha hmac BC HM SH k (key ++ j)); [reflexivity|exact HI|exact HBw|exact HL|apply firstn_key; assumption|rewrite len_app; lia|].
    intros m O. rewrite key_opens_app in O by exact HK. exact (C m O).
  Qed.
  Lemma master_key_ok before e after id key j out master : bytes key -> Forall (key_entry_closed enc sha id key) before ->
    key_entry_opens enc sha id key e master -> len out = 32 ->
    get_master_key dec sha (before ++ e :: after) id (key ++ j) out = Ok (Some master).
  Proof.
    intros HB F (k & (T & I & R) & HK & O) HO. induction F as [|x l X F IH]; cbn [app]; [|rewrite key_closed_step by assumption; exact IH].
    cbn [get_master_key]. replace (be_type e =? 2) with true by lia. replace (list_eqb (be_id e) id) with true by (symmetry; apply list_eqb_eq, I). cbn [negb orb].
    destruct (record_read _ _ _ R) as (E & HI & HBw & HL & Hid). rewrite E. cbn [bind]. pose proof (len_nonneg j).
    rewrite (unlock_key_opens enc dec sha hmac BC HM SH k (key ++ j) master); [reflexivity|exact HI|exact HL|exact Hid|exact HO|apply firstn_key; assumption|rewrite len_app; lia|].
    rewrite key_opens_app by exact HK. exact O.
  Qed.
  Lemma master_key_none l id key j out : bytes key -> Forall (key_entry_closed enc sha id key) l -> get_master_key dec sha l id (key ++ j) out = Ok None.
  Proof. intros HB. induction 1 as [|x l X F IH]; [reflexivity|]. rewrite key_closed_step by assumption. exact IH. Qed.

  Lemma entry_opens_bytes user recovery e key : entry_opens enc hmac user recovery e key -> bytes key.
  Proof. intros (k & _ & [(p & _ & O)|(_ & p & _ & O)]); apply O. Qed.
  Lemma key_entry_opens_len id key e master : key_entry_opens enc sha id key e master -> len master = 32.
  Proof.
    intros (k & _ & _ & m & _ & L & _ & ->). unfold method_size in L. destruct (k_method k =? 2); [|exact L].
    rewrite len_app. pose proof (SH (m ++ k_id k)). unfold len in *. rewrite firstn_length. lia.
  Qed.

  Theorem unlock_ok b v before e after cbefore ce cafter key master j1 j2 :
    v_locked v = true -> b_volume b = Some (before ++ e :: after) -> b_container b = cbefore ++ ce :: cafter ->
    Forall (entry_closed enc hmac (v_user v) (v_recovery v)) before -> entry_opens enc hmac (v_user v) (v_recovery v) e key ->
    Forall (key_entry_closed enc sha (b_id b) key) cbefore -> key_entry_opens enc sha (b_id b) key ce master ->
    len j1 = 32 -> len j2 = 32 ->
    unlock dec sha hmac b v j1 j2 =
    Ok (1, {| v_locked := false; v_user := v_user v; v_recovery := v_recovery v; v_keys := Some (firstn 16 master, skipn 16 master) |}).
  Proof.
    intros HL EV EC F1 O1 F2 O2 J1 J2. unfold unlock. rewrite HL, EV, EC. cbn [negb].
    rewrite (volume_key_ok before e after _ _ key) by assumption.
    pose proof (entry_opens_bytes _ _ _ _ O1) as HB. pose proof (key_entry_opens_len _ _ _ _ O2) as LM.
    rewrite (master_key_ok cbefore ce cafter (b_id b) key _ j2 master) by assumption.
    rewrite rd_in by lia. rewrite rd_in by lia. cbn [bind]. unfold slice. change (Z.to_nat 0) with 0%nat. change (Z.to_nat 16) with 16%nat. rewrite skipn_O.
    rewrite (firstn_all2 (n := 16) (skipn 16 master)) by (rewrite skipn_length; unfold len in LM; lia). reflexivity.
  Qed.
  Theorem unlock_wrong b v l j1 j2 : v_locked v = true -> b_volume b = Some l -> Forall (entry_closed enc hmac (v_user v) (v_recovery v)) l ->
    unlock dec sha hmac b v j1 j2 = Ok (0, v).
  Proof. intros HL EV F. unfold unlock. rewrite HL, EV. cbn [negb]. rewrite volume_key_none by exact F. reflexivity. Qed.
End Volume.
