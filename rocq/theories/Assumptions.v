(* What each theorem of MANIFEST.json assumes (generated). *)
From Verif Require ThmSessions ThmAuth ThmPrivate ThmReadOnly ThmQuery ThmProtect ThmAttrs ThmAnswered ThmObjects ThmSearch ThmOps ThmAlways ThmMech ThmAtomic ThmAtomic2 ThmOrigin ThmDerived ThmWrap ThmStore ThmSeal ThmKeys ThmInit ThmConfig ThmLocks ThmBuffers ThmAesBuf ThmAead2 ThmChunks ThmMac ThmChunks2 ThmKdf ThmKdf2 ThmHkdf ThmAgreeMore ThmState ThmHotp ThmNull ThmNew ThmMsg ThmAead ThmNssPin ThmNssObj ThmNssSeal ThmDer ThmSig ThmSigMore ThmAsym ThmAgree ThmWrapBack ThmKept ThmMaterial ThmComputed ThmDestroy ThmDestroyAll ThmGone.
Print Assumptions ThmSessions.C01_session_handles_fresh.
Print Assumptions ThmSessions.C01_opened_is_open.
Print Assumptions ThmSessions.C02_not_open_refused.
Print Assumptions ThmSessions.C02_tables_agree.
Print Assumptions ThmSessions.C03_states_follow_login_partial.
Print Assumptions ThmSessions.C03_states_follow_login_refuted.
Print Assumptions ThmSessions.C03_logout_refuted.
Print Assumptions ThmSessions.C04_no_ro_session_with_so.
Print Assumptions ThmSessions.C05_second_login_refused.
Print Assumptions ThmSessions.C05_login_outcome.
Print Assumptions ThmSessions.C06_no_session_no_login.
Print Assumptions ThmSessions.C06_close_session.
Print Assumptions ThmSessions.C06_close_all_sessions.
Print Assumptions ThmAuth.C07_ten_failures_lock_partial.
Print Assumptions ThmAuth.C07_failures_are_recorded.
Print Assumptions ThmAuth.C07_ten_failures_lock_refuted.
Print Assumptions ThmAuth.C08_no_other_pin.
Print Assumptions ThmAuth.C08_right_pin_not_refused.
Print Assumptions ThmAuth.C08_right_pin_logs_in.
Print Assumptions ThmAuth.C08_success_resets_counter.
Print Assumptions ThmAuth.C08_failure_adds_one.
Print Assumptions ThmPrivate.C09_refused_partial.
Print Assumptions ThmPrivate.C09_untouched.
Print Assumptions ThmPrivate.C09_search.
Print Assumptions ThmPrivate.C09_size_refuted.
Print Assumptions ThmPrivate.C09_operation_refuted.
Print Assumptions ThmPrivate.C09_search_refuted.
Print Assumptions ThmReadOnly.C10_read_only_partial.
Print Assumptions ThmReadOnly.C10_read_only_copy_refuted.
Print Assumptions ThmReadOnly.C10_read_only_derive_refuted.
Print Assumptions ThmQuery.C11_secrets_hidden_partial.
Print Assumptions ThmQuery.C11_dh_refuted.
Print Assumptions ThmQuery.C11_others_refuted.
Print Assumptions ThmProtect.C12_family_partial.
Print Assumptions ThmProtect.C12_unreadable_partial.
Print Assumptions ThmProtect.C12_copy_class_refuted.
Print Assumptions ThmProtect.C12_set_type_refuted.
Print Assumptions ThmAttrs.C13_one_way.
Print Assumptions ThmAttrs.C13_copy.
Print Assumptions ThmQuery.C14_entries_partial.
Print Assumptions ThmQuery.C14_nothing_else.
Print Assumptions ThmQuery.C14_memory.
Print Assumptions ThmAnswered.C14_session_answered.
Print Assumptions ThmAnswered.C14_plain_answered_partial.
Print Assumptions ThmAnswered.C14_secret_answered_partial.
Print Assumptions ThmQuery.C14_independent_refuted.
Print Assumptions ThmAttrs.C15_modifiable.
Print Assumptions ThmAttrs.C15_destroyable.
Print Assumptions ThmAttrs.C15_copyable.
Print Assumptions ThmAttrs.C16_failure_partial.
Print Assumptions ThmAttrs.C16_success.
Print Assumptions ThmAttrs.C16_session_refuted.
Print Assumptions ThmObjects.C17_one_handle.
Print Assumptions ThmObjects.C17_not_recycled.
Print Assumptions ThmObjects.C17_gone_for_good.
Print Assumptions ThmObjects.C17_handle_kept_partial.
Print Assumptions ThmObjects.C17_handle_kept_refuted.
Print Assumptions ThmObjects.C17_shared_refuted.
Print Assumptions ThmObjects.C18_close_session.
Print Assumptions ThmObjects.C18_close_all_sessions.
Print Assumptions ThmObjects.C18_owner_open.
Print Assumptions ThmSearch.C19_search_partial.
Print Assumptions ThmSearch.C19_split.
Print Assumptions ThmSearch.C19_boolean_refuted.
Print Assumptions ThmSearch.C19_value_refuted.
Print Assumptions ThmSearch.C19_hidden_refuted.
Print Assumptions ThmSearch.C19_class_refuted.
Print Assumptions ThmOps.C20_no_second.
Print Assumptions ThmOps.C20_no_operation_partial.
Print Assumptions ThmOps.C20_own_calls_only.
Print Assumptions ThmOps.C20_others_do_not_matter.
Print Assumptions ThmOps.C20_cancel.
Print Assumptions ThmOps.C20_cancel_refuted.
Print Assumptions ThmOps.C20_find_final_refuted.
Print Assumptions ThmOps.C20_waiting_refuted.
Print Assumptions ThmAlways.C21_no_output_partial.
Print Assumptions ThmAlways.C21_other_start_refuted.
Print Assumptions ThmMech.C22_unlisted.
Print Assumptions ThmMech.C22_allowed_partial.
Print Assumptions ThmMech.C22_list.
Print Assumptions ThmMech.C22_list_refuted.
Print Assumptions ThmMech.C22_restore_refuted.
Print Assumptions ThmMech.C22_digest_key_refuted.
Print Assumptions ThmAtomic.C23_pair_partial.
Print Assumptions ThmAtomic.C23_pair_failure_partial.
Print Assumptions ThmAtomic.C23_lasting_refuted.
Print Assumptions ThmAtomic.C23_twice_refuted.
Print Assumptions ThmAtomic2.C23_derive_partial.
Print Assumptions ThmAtomic2.C23_derive_refuted.
Print Assumptions ThmOrigin.C24_kept.
Print Assumptions ThmOrigin.C24_kept_trusted.
Print Assumptions ThmOrigin.C24_created.
Print Assumptions ThmOrigin.C24_generated.
Print Assumptions ThmOrigin.C24_generated_pair.
Print Assumptions ThmOrigin.C24_copied_partial.
Print Assumptions ThmDerived.C24_derived.
Print Assumptions ThmOrigin.C24_trusted_refuted.
Print Assumptions ThmOrigin.C24_copy_refuted.
Print Assumptions ThmOrigin.C24_unwrap_refuted.
Print Assumptions ThmDerived.C24_derive_refuted.
Print Assumptions ThmWrap.C25_wrap.
Print Assumptions ThmStore.C26_read_back.
Print Assumptions ThmStore.C27_old_or_new.
Print Assumptions ThmStore.C27_object.
Print Assumptions ThmStore.C27_other_objects.
Print Assumptions ThmStore.C27_user_record.
Print Assumptions ThmStore.C27_token_info.
Print Assumptions ThmStore.C27_init_token_refuted.
Print Assumptions ThmSeal.C28_sealed_partial.
Print Assumptions ThmSeal.C28_duplicate_refuted.
Print Assumptions ThmSeal.C28_dh_refuted.
Print Assumptions ThmSeal.C28_retyped_refuted.
Print Assumptions ThmKeys.C29_same_key.
Print Assumptions ThmKeys.C29_secrets_kept.
Print Assumptions ThmKeys.C29_login_reads.
Print Assumptions ThmKeys.C29_moved.
Print Assumptions ThmInit.C30_init_token_erases.
Print Assumptions ThmInit.C30_wrong_pin_changes_nothing.
Print Assumptions ThmInit.C30_open_session_refused.
Print Assumptions ThmConfig.C31_merged_partial.
Print Assumptions ThmConfig.C31_refused.
Print Assumptions ThmConfig.C31_history.
Print Assumptions ThmConfig.C31_limit_refuted.
Print Assumptions ThmConfig.C31_panic_refuted.
Print Assumptions ThmConfig.C31_file_refuted.
Print Assumptions ThmConfig.C31_refused_refuted.
Print Assumptions ThmLocks.C32_no_cycle_partial.
Print Assumptions ThmLocks.C32_progress_partial.
Print Assumptions ThmLocks.C32_login_refuted.
Print Assumptions ThmLocks.C32_fips_refuted.
Print Assumptions ThmBuffers.C33_retry_partial.
Print Assumptions ThmBuffers.C33_length_refuted.
Print Assumptions ThmAesBuf.C33_aes_partial.
Print Assumptions ThmAesBuf.C33_pad_refuted.
Print Assumptions ThmAesBuf.C33_cts_refuted.
Print Assumptions ThmAesBuf.C33_ctr_refuted.
Print Assumptions ThmAead2.C33_message_refuted.
Print Assumptions ThmChunks.C34_encrypt_partial.
Print Assumptions ThmChunks.C34_decrypt_partial.
Print Assumptions ThmChunks.C34_round_trip_partial.
Print Assumptions ThmChunks.C34_pieces_round_trip_partial.
Print Assumptions ThmMac.C34_digest.
Print Assumptions ThmMac.C34_hmac.
Print Assumptions ThmMac.C34_cmac.
Print Assumptions ThmMac.C34_aes_mac.
Print Assumptions ThmChunks.C34_gcm_refuted.
Print Assumptions ThmChunks.C34_pad_refuted.
Print Assumptions ThmChunks.C34_ctr_refuted.
Print Assumptions ThmChunks.C34_wrap_refuted.
Print Assumptions ThmChunks2.C34_ccm_partial.
Print Assumptions ThmChunks2.C34_ccm_round_trip_partial.
Print Assumptions ThmChunks2.C34_cts_partial.
Print Assumptions ThmChunks2.C34_ccm_refuted.
Print Assumptions ThmChunks2.C34_cts_refuted.
Print Assumptions ThmKdf.C35_pbkdf2.
Print Assumptions ThmKdf.C35_pbkdf2_zero_refuted.
Print Assumptions ThmKdf.C35_sp800_partial.
Print Assumptions ThmKdf2.C35_sp800_total.
Print Assumptions ThmKdf2.C35_sp800_bits_refuted.
Print Assumptions ThmKdf2.C35_sp800_wrap_refuted.
Print Assumptions ThmKdf2.C35_sp800_panic_refuted.
Print Assumptions ThmKdf2.C35_tls_prf.
Print Assumptions ThmKdf2.C35_tls_keys.
Print Assumptions ThmKdf2.C35_ssh.
Print Assumptions ThmKdf2.C35_simple.
Print Assumptions ThmKdf2.C35_extract_partial.
Print Assumptions ThmKdf2.C35_extract_refuted.
Print Assumptions ThmHkdf.C35_hkdf.
Print Assumptions ThmHkdf.C35_hkdf_total.
Print Assumptions ThmHkdf.C35_hkdf_steps.
Print Assumptions ThmHkdf.C35_hkdf_prefix.
Print Assumptions ThmHkdf.C35_hkdf_flag_refuted.
Print Assumptions ThmHkdf.C35_hkdf_null_refuted.
Print Assumptions ThmAgreeMore.C35_hkdf_once.
Print Assumptions ThmSessions.C36_uninitialised_refused.
Print Assumptions ThmSessions.C36_initialised.
Print Assumptions ThmSessions.C36_finalize.
Print Assumptions ThmSessions.C36_initialize_fresh.
Print Assumptions ThmSessions.C37_slot_list.
Print Assumptions ThmSessions.C37_mechanism_list.
Print Assumptions ThmSessions.C37_interface_list.
Print Assumptions ThmSessions.C37_null_count.
Print Assumptions ThmState.C38_faithful.
Print Assumptions ThmState.C38_round_trip.
Print Assumptions ThmState.C38_other_blob.
Print Assumptions ThmState.C38_refused_partial.
Print Assumptions ThmState.C38_refused_refuted.
Print Assumptions ThmState.C38_dropped_refuted.
Print Assumptions ThmState.C38_usable_refuted.
Print Assumptions ThmHotp.C39_partial.
Print Assumptions ThmHotp.C39_sessions_refuted.
Print Assumptions ThmHotp.C39_store_refuted.
Print Assumptions ThmHotp.C39_set_refuted.
Print Assumptions ThmHotp.C39_settable_refuted.
Print Assumptions ThmHotp.C39_wrap_refuted.
Print Assumptions ThmNull.C40_null_refused.
Print Assumptions ThmNull.C40_no_null_access_partial.
Print Assumptions ThmNull.C40_null_access_refuted.
Print Assumptions ThmAead2.C40_tag_refuted.
Print Assumptions ThmObjects.C41_other_objects_untouched.
Print Assumptions ThmObjects.C42_slots_isolated.
Print Assumptions ThmNew.C43_generated.
Print Assumptions ThmNew.C43_pair.
Print Assumptions ThmNew.C43_created_partial.
Print Assumptions ThmMsg.C44_counter_partial.
Print Assumptions ThmMsg.C44_xor_partial.
Print Assumptions ThmMsg.C44_fixed_bits.
Print Assumptions ThmAead2.C44_xor_refuted.
Print Assumptions ThmAead2.C44_bits_refuted.
Print Assumptions ThmAead.C45_encrypt_partial.
Print Assumptions ThmAead.C45_decrypt_partial.
Print Assumptions ThmAead.C45_single.
Print Assumptions ThmAead.C45_round_trip_partial.
Print Assumptions ThmAead.C45_history.
Print Assumptions ThmAead2.C45_refused_partial.
Print Assumptions ThmAead2.C45_ccm_refuted.
Print Assumptions ThmAead2.C45_ccm_second_refuted.
Print Assumptions ThmAead2.C45_plaintext_refuted.
Print Assumptions ThmAead2.C45_nonce_refuted.
Print Assumptions ThmAead2.C45_stuck_refuted.
Print Assumptions ThmNssPin.C46_partial.
Print Assumptions ThmNssPin.C46_right_pin_partial.
Print Assumptions ThmNssPin.C46_new_pin.
Print Assumptions ThmNssPin.C46_no_key.
Print Assumptions ThmNssPin.C46_any_pin_refuted.
Print Assumptions ThmNssPin.C46_init_pin_refuted.
Print Assumptions ThmNssPin.C46_old_pin_refuted.
Print Assumptions ThmNssPin.C46_locked_out_refuted.
Print Assumptions ThmNssObj.C47_partial.
Print Assumptions ThmNssObj.C47_others.
Print Assumptions ThmNssObj.C47_ready.
Print Assumptions ThmNssObj.C47_value_refuted.
Print Assumptions ThmNssObj.C47_mechanisms_refuted.
Print Assumptions ThmNssObj.C47_pin_change_refuted.
Print Assumptions ThmNssObj.C47_ciphertext_refuted.
Print Assumptions ThmNssObj.C47_old_database_refuted.
Print Assumptions ThmNssSeal.C48_partial.
Print Assumptions ThmNssSeal.C48_modified.
Print Assumptions ThmNssSeal.C48_sensitive.
Print Assumptions ThmNssSeal.C48_checked_partial.
Print Assumptions ThmNssSeal.C48_login.
Print Assumptions ThmNssSeal.C48_forged_refuted.
Print Assumptions ThmNssSeal.C48_logged_out_refuted.
Print Assumptions ThmNssSeal.C48_twice_refuted.
Print Assumptions ThmDer.C49_ecdsa_forms.
Print Assumptions ThmDer.C49_room.
Print Assumptions ThmDer.C50_rsa_transport.
Print Assumptions ThmDer.C50_same.
Print Assumptions ThmDer.C50_trailing.
Print Assumptions ThmDer.C50_zero_refuted.
Print Assumptions ThmSig.C51_sign.
Print Assumptions ThmSig.C51_sign_whole.
Print Assumptions ThmSig.C51_verify.
Print Assumptions ThmSig.C51_verify_whole.
Print Assumptions ThmSig.C51_round.
Print Assumptions ThmSig.C51_digest.
Print Assumptions ThmSig.C51_domain.
Print Assumptions ThmSigMore.C51_sound.
Print Assumptions ThmSigMore.C51_length.
Print Assumptions ThmSigMore.C51_verify_length.
Print Assumptions ThmSigMore.C51_signature_length.
Print Assumptions ThmSig.C52_finished.
Print Assumptions ThmSig.C52_over.
Print Assumptions ThmSig.C52_over_single_partial.
Print Assumptions ThmSig.C52_piece_ends_partial.
Print Assumptions ThmSig.C52_lost_piece.
Print Assumptions ThmSig.C52_lost_piece_refuted.
Print Assumptions ThmSig.C52_wrong_code.
Print Assumptions ThmSig.C52_wrong_code_refuted.
Print Assumptions ThmAsym.C53_round.
Print Assumptions ThmAsym.C53_length_partial.
Print Assumptions ThmAsym.C53_small_partial.
Print Assumptions ThmAsym.C53_refused.
Print Assumptions ThmAsym.C53_wrap_partial.
Print Assumptions ThmAsym.C53_wrap_small.
Print Assumptions ThmAsym.C53_once.
Print Assumptions ThmAsym.C53_fits.
Print Assumptions ThmAsym.C53_zero_buffer_refuted.
Print Assumptions ThmAsym.C53_x509_refuted.
Print Assumptions ThmAsym.C53_oaep_panic_refuted.
Print Assumptions ThmAsym.C53_short_buffer_refuted.
Print Assumptions ThmAsym.C53_padded_modulus_refuted.
Print Assumptions ThmAgree.C54_ecdh_value.
Print Assumptions ThmAgree.C54_ecdh_same.
Print Assumptions ThmAgree.C54_ecdh_made.
Print Assumptions ThmAgree.C54_ffdh_same.
Print Assumptions ThmAgree.C54_ffdh_value_partial.
Print Assumptions ThmAgree.C54_ffdh_value_refuted.
Print Assumptions ThmAgree.C54_ffdh_full_refuted.
Print Assumptions ThmAgree.C54_short_point_refuted.
Print Assumptions ThmAgreeMore.C54_shared_refused.
Print Assumptions ThmAgreeMore.C54_long_refused.
Print Assumptions ThmAgreeMore.C54_once.
Print Assumptions ThmWrapBack.C55_wrapped.
Print Assumptions ThmWrapBack.C55_encapsulated.
Print Assumptions ThmKept.C56_stays_partial.
Print Assumptions ThmKept.C56_locked_partial.
Print Assumptions ThmKept.C56_refuted.
Print Assumptions ThmMaterial.C57_components.
Print Assumptions ThmMaterial.C57_value_partial.
Print Assumptions ThmMaterial.C57_class_refuted.
Print Assumptions ThmMaterial.C57_secret_refuted.
Print Assumptions ThmComputed.C58_derived.
Print Assumptions ThmComputed.C58_generated.
Print Assumptions ThmComputed.C58_password.
Print Assumptions ThmComputed.C58_pair.
Print Assumptions ThmComputed.C58_created_partial.
Print Assumptions ThmComputed.C58_copied_partial.
Print Assumptions ThmDestroy.C59_session.
Print Assumptions ThmDestroy.C59_stored_partial.
Print Assumptions ThmDestroyAll.C59_public_partial.
Print Assumptions ThmDestroyAll.C59_secret_partial.
Print Assumptions ThmDestroy.C59_stuck.
Print Assumptions ThmDestroy.C59_refuted.
Print Assumptions ThmGone.C60_handle.
Print Assumptions ThmGone.C60_record_partial.
Print Assumptions ThmGone.C60_refuted.
