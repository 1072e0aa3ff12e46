(** No key crashes the text interface but in three cases (C70). *)
From Verif Require Import Base Utf8 Spec_Trim GoStrings FieldsProof Json Crypto Path Fs Domain Repos Session World Config Updater Cli
  CliProof Gui Spec_Gui Spec_Release Spec_Vault Properties_Session Properties_Gui Properties_Release.

(** Whatever was done before, a key (or anything else the interface reacts to) crashes it only so: Tab at the end of the menu with an
    empty list of items in a vault without trashed items; Enter in the password prompt if the vault is broken (see C16);
    or the answer of the update check, if the list of releases is odd (see C58) or the settings have a
    value of the wrong type (see C49). *)
Theorem C70_no_key_crashes_partial : forall C U tz Y dir center g g' O i,
  running C U tz Y dir center g -> oracles_ok O -> gui_step C U tz O dir center i g = (g', Panic) ->
  (i = Press KTab /\ current g = VItems /\ shown g VItems = Some [] /\
     (forall i, held (session g) i -> it_trashed i = false) /\ (g_menu_idx g + 1 = Z.of_nat (length (entries g)))%Z) \/
  (i = Press KEnter /\ current g = VPrompt /\ exists password, trimmed (typed g) password /\
     unlock C U tz O (w_disk (a_world (g_app g))) (g_vault g) password (session g) = Panic) \/
  (i = Checked /\ ((exists body, answer (a_world (g_app g)) 0 body /\ odd_list body) \/ get_config (a_conf (g_app g)) = Panic)).
Proof.
  intros C U tz Y dir center g g' O i R HO H.
  destruct (key_crashes C U tz Y dir center g g' O i R HO H) as [K|[K|[K1 K2]]]; [now left| |right; right].
  { right. left. destruct K as (K1 & K2 & K3). split; [exact K1|]. split; [exact K2|].
    exists (trim_space (typed g)). split; [apply trim_space_trimmed|exact K3]. }
  split; [exact K1|]. clear -K2. set (w := a_world (g_app g)) in *. unfold facade_check, bind at 1, lift in K2.
  destruct (get_config (a_conf (g_app g))) as [cfg| |n]; [left|now right|discriminate].
  apply check_panics in K2. exact K2.
Qed.
Print Assumptions C70_no_key_crashes_partial.
