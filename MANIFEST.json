{
 "claims": [
  {
   "property": "C01",
   "status": "proved",
   "theorems": [
    "C01_session_handles_fresh",
    "C01_opened_is_open"
   ],
   "note": "Every history between C_Initialize and C_Finalize/crash. Handles are unbounded numbers in the model (the 64-bit counter of the code does not wrap)."
  },
  {
   "property": "C02",
   "status": "proved",
   "theorems": [
    "C02_not_open_refused",
    "C02_tables_agree"
   ],
   "note": "C_SetOperationState with an encryption key handle answers CKR_KEY_NOT_NEEDED before it looks at the session."
  },
  {
   "property": "C03",
   "status": "partial",
   "theorems": [
    "C03_states_follow_login_partial",
    "C03_states_follow_login_refuted",
    "C03_logout_refuted"
   ],
   "note": "False: a session opened while the SO is logged in reports CKS_RW_USER_FUNCTIONS, and sessions keep their state after a C_Logout whose storage access fails. Proved for every history without these two."
  },
  {
   "property": "C04",
   "status": "proved",
   "theorems": [
    "C04_no_ro_session_with_so"
   ],
   "note": ""
  },
  {
   "property": "C05",
   "status": "proved",
   "theorems": [
    "C05_second_login_refused",
    "C05_login_outcome"
   ],
   "note": "An SO login while a read-only session is open is answered CKR_SESSION_READ_ONLY_EXISTS first."
  },
  {
   "property": "C06",
   "status": "proved",
   "theorems": [
    "C06_no_session_no_login",
    "C06_close_session",
    "C06_close_all_sessions"
   ],
   "note": "That nobody logged in means private token objects are unreachable is C09."
  },
  {
   "property": "C07",
   "status": "partial",
   "theorems": [
    "C07_ten_failures_lock_partial",
    "C07_failures_are_recorded",
    "C07_ten_failures_lock_refuted"
   ],
   "note": "For every history of calls, restarts, crashes and database failures from an empty machine: after ten failed attempts in a row by any mix of C_Login, context login, C_SetPIN and C_InitToken, no PIN is accepted and the record does not change. Missing: attempts during which the database write fails are not counted; the full statement is refuted (the code ignores the failing write of the counter, so a read-only medium allows unlimited guesses). Databases are named after their slot (hypothesis steady)."
  },
  {
   "property": "C08",
   "status": "proved",
   "theorems": [
    "C08_no_other_pin",
    "C08_right_pin_not_refused",
    "C08_right_pin_logs_in",
    "C08_success_resets_counter",
    "C08_failure_adds_one"
   ],
   "note": "Every history from an empty machine. The laws of the PIN-based key sealing (pin_laws) are hypotheses on the modelled crypto. After a C_InitToken that failed half-way, which PIN the SO record holds is not determined (pin_of is None)."
  },
  {
   "property": "C09",
   "status": "partial",
   "theorems": [
    "C09_refused_partial",
    "C09_untouched",
    "C09_search",
    "C09_size_refuted",
    "C09_operation_refuted",
    "C09_search_refuted"
   ],
   "note": "Every call taking an object handle is refused for private token objects while nobody is logged in, no call changes them, a search started then does not deliver them. Missing because false in the code: C_GetObjectSize answers for them, and operations and searches started before C_Logout go on."
  },
  {
   "property": "C10",
   "status": "partial",
   "theorems": [
    "C10_read_only_partial",
    "C10_read_only_copy_refuted",
    "C10_read_only_derive_refuted"
   ],
   "note": "For every reachable state and every call on a session opened without CKF_RW_SESSION, the stored objects of all slots are unchanged. Not covered: C_CopyObject of a token object without CKA_TOKEN in the template and C_DeriveKey with additional-key templates mentioning CKA_TOKEN (both shown to store objects: findings), and operations that store a counter in their key (HOTP)."
  },
  {
   "property": "C11",
   "status": "partial",
   "theorems": [
    "C11_secrets_hidden_partial",
    "C11_dh_refuted",
    "C11_others_refuted"
   ],
   "note": "False for Diffie-Hellman private keys, whose CKA_VALUE is not flagged sensitive; and while nobody is logged in a query naming a secret attribute of a public token key fails as a whole (CKR_GENERAL_ERROR, nothing written). Proved for all other kinds of keys and all queries that are answered."
  },
  {
   "property": "C12",
   "status": "partial",
   "theorems": [
    "C12_family_partial",
    "C12_unreadable_partial",
    "C12_copy_class_refuted",
    "C12_set_type_refuted"
   ],
   "note": "Proved: over every history in which no C_SetAttributeValue or C_CopyObject template carries CKA_CLASS or CKA_KEY_TYPE, a protected key and all direct and indirect copies keep their kind, stay protected and do not show their secret. Missing: the statement is false when the class or key type is changed (two refutations: a copy with another CKA_CLASS, a changed CKA_CLASS or CKA_KEY_TYPE), and Diffie-Hellman keys show their value (see C11)."
  },
  {
   "property": "C13",
   "status": "proved",
   "theorems": [
    "C13_one_way",
    "C13_copy"
   ],
   "note": "On slots configured to deduplicate objects, creating an equal object may replace the attributes of a stored one: excluded by no_replace (Spec.v)."
  },
  {
   "property": "C14",
   "status": "partial",
   "theorems": [
    "C14_entries_partial",
    "C14_nothing_else",
    "C14_memory",
    "C14_session_answered",
    "C14_plain_answered_partial",
    "C14_secret_answered_partial",
    "C14_independent_refuted"
   ],
   "note": "Proved for every call that is answered; a call that is not writes nothing. Always answered: queries of session objects; of a stored object of a known kind whose database answers, queries that ask for no secret, and, while the key of the token is in memory, all queries of attribute types below 2^32. Entries of one call on a token object are not independent when the fetch of the object fails (refuted with a type of 2^32 or more; the example C14_secret_unanswered shows it for a secret asked for while nobody is logged in)."
  },
  {
   "property": "C15",
   "status": "proved",
   "theorems": [
    "C15_modifiable",
    "C15_destroyable",
    "C15_copyable"
   ],
   "note": "Objects without the attribute count as modifiable, copyable and not destroyable, as in the code."
  },
  {
   "property": "C16",
   "status": "partial",
   "theorems": [
    "C16_failure_partial",
    "C16_success",
    "C16_session_refuted"
   ],
   "note": "Proved for token objects; for session objects only if every entry of the template has a value of the right form, since entries before a malformed one are applied (refuted)."
  },
  {
   "property": "C17",
   "status": "partial",
   "theorems": [
    "C17_one_handle",
    "C17_not_recycled",
    "C17_gone_for_good",
    "C17_handle_kept_partial",
    "C17_handle_kept_refuted",
    "C17_shared_refuted"
   ],
   "note": "Proved: an object has one handle, a handle never names another object, and names nothing for good once its object is gone. False: C_DestroyObject forgets the handle and returns CKR_OK even if the database fails to remove the object, which then gets another handle; a key generated with the CKA_UNIQUE_ID of a stored object shares its handle."
  },
  {
   "property": "C18",
   "status": "proved",
   "theorems": [
    "C18_close_session",
    "C18_close_all_sessions",
    "C18_owner_open"
   ],
   "note": "Private session objects of other sessions also survive: the logout that follows the closing of the last session has none left to destroy."
  },
  {
   "property": "C19",
   "status": "partial",
   "theorems": [
    "C19_search_partial",
    "C19_split",
    "C19_boolean_refuted",
    "C19_value_refuted",
    "C19_hidden_refuted",
    "C19_class_refuted"
   ],
   "note": "For every reachable state the search delivers, without repetition and however the calls are divided, exactly the visible objects matching the template. Hypotheses: template booleans are 0/1 and dates non-empty, no session object shares a stored object's identifier, no session object had its class changed. The refuted theorems show the code violating the property outside these (non-canonical booleans, search by a readable stored CKA_VALUE, CKA_UNIQUE_ID below ten, changed class)."
  },
  {
   "property": "C20",
   "status": "partial",
   "theorems": [
    "C20_no_second",
    "C20_no_operation_partial",
    "C20_own_calls_only",
    "C20_others_do_not_matter",
    "C20_cancel",
    "C20_cancel_refuted",
    "C20_find_final_refuted",
    "C20_waiting_refuted"
   ],
   "note": "Proved for every reachable state: a second init changes nothing and answers CKR_OPERATION_ACTIVE; a continuation without its operation changes nothing and answers CKR_OPERATION_NOT_INITIALIZED; calls in other sessions neither change a session's operations nor are influenced by them (influence on C_Login excluded); C_SessionCancel ends exactly the operations its flags name. Not true of the code: C_SessionCancel never ends a verification of a signature given in advance, whatever its flags (proved for every reachable state); refuted by witnesses: C_FindObjectsFinal without a search returns CKR_OK; while an always-authenticate operation waits for its login, continuing an operation of another, inactive kind answers CKR_USER_NOT_LOGGED_IN."
  },
  {
   "property": "C21",
   "status": "partial",
   "theorems": [
    "C21_no_output_partial",
    "C21_other_start_refuted"
   ],
   "note": "For every reachable state and every sequence of calls in any sessions: after the init of a signature or decryption with such a key no call that goes on with an operation of the session has any effect or output, until a context-specific C_Login succeeds there or another operation is started there. The last exception is a defect of the code, refuted by a witness: starting a search (or digest, verification, encryption) clears the pending login requirement."
  },
  {
   "property": "C22",
   "status": "partial",
   "theorems": [
    "C22_unlisted",
    "C22_allowed_partial",
    "C22_list",
    "C22_list_refuted",
    "C22_restore_refuted",
    "C22_digest_key_refuted"
   ],
   "note": "Every call that names a mechanism the slot does not list, or a key whose CKA_ALLOWED_MECHANISMS lacks it, gives nothing back and changes no object and no operation; from C_Initialize to C_Finalize a slot lists exactly what its allow or deny list leaves. Missing: three exceptions found in the code. C_SetOperationState restores a signature with a key whose list lacks the mechanism. C_DigestKey ignores the list of the key it feeds. A removed mechanism can still be found as an object of class CKO_MECHANISM."
  },
  {
   "property": "C23",
   "status": "partial",
   "theorems": [
    "C23_pair_partial",
    "C23_pair_failure_partial",
    "C23_lasting_refuted",
    "C23_twice_refuted",
    "C23_derive_partial",
    "C23_derive_refuted"
   ],
   "note": "C_GenerateKeyPair: if it fails, every session object and every record afterwards was there before, for all histories, templates and keys, provided the public template does not make the key indestructible and the database works; and likewise if one database call fails in a call that would otherwise have succeeded. False in general: with CKA_DESTROYABLE=false the public key stays behind, and so it does if the database also fails on its removal. C_DeriveKey making any number of secret keys (SP800-108, TLS): the same, if each key can be destroyed and the mechanism makes as many keys as were asked for; false when the first key has CKA_DESTROYABLE=false. Missing: one failing database call in C_DeriveKey."
  },
  {
   "property": "C24",
   "status": "partial",
   "theorems": [
    "C24_kept",
    "C24_kept_trusted",
    "C24_created",
    "C24_generated",
    "C24_generated_pair",
    "C24_copied_partial",
    "C24_derived",
    "C24_trusted_refuted",
    "C24_copy_refuted",
    "C24_unwrap_refuted",
    "C24_derive_refuted"
   ],
   "note": "For every history the five attributes of an existing object keep their value; C_CreateObject, C_GenerateKey and C_GenerateKeyPair set LOCAL, KEY_GEN_MECHANISM, ALWAYS_SENSITIVE and NEVER_EXTRACTABLE from how the key was made. The full statement is false in the code: templates of C_GenerateKey choose CKA_TRUSTED, of C_CopyObject LOCAL, KEY_GEN_MECHANISM, TRUSTED and NEVER_EXTRACTABLE, of C_UnwrapKey all of them. A key of C_DeriveKey is not local, and always sensitive or never extractable only if its base key is, except one made by key agreement (ECDH, DH), which gets the attributes of a generated key whatever its base key was. Concatenation of keys is not covered."
  },
  {
   "property": "C25",
   "status": "proved",
   "theorems": [
    "C25_wrap"
   ],
   "note": "C_WrapKey gives something back only if the key is extractable, the wrapping key has CKA_WRAP, and it has CKA_TRUSTED when the key asks for it."
  },
  {
   "property": "C26",
   "status": "proved",
   "theorems": [
    "C26_read_back"
   ],
   "note": "Every history of the database and every later history not about the object; 64-bit numbers that do not fit are refused (the statements are only produced when every value can be represented). CKA_CHECK_VALUE is ignored by the module and not stored."
  },
  {
   "property": "C27",
   "status": "partial",
   "theorems": [
    "C27_old_or_new",
    "C27_object",
    "C27_other_objects",
    "C27_user_record",
    "C27_token_info",
    "C27_init_token_refuted"
   ],
   "note": "Every database request is one transaction and every crash point leaves the file before or after it; SQLite's own atomic commit is trusted. C_InitToken makes several writes and a crash between them loses the SO record or leaves an empty SO PIN (refuted)."
  },
  {
   "property": "C28",
   "status": "partial",
   "theorems": [
    "C28_sealed_partial",
    "C28_duplicate_refuted",
    "C28_dh_refuted",
    "C28_retyped_refuted"
   ],
   "note": "For every history with restarts and crashes, from any successful C_InitToken to the next: all secret attributes of all records are values of the sealing function under one key, for the record's own identifier, and that key is the one in memory whenever a key is. Conditions: no C_SetAttributeValue template names an attribute twice, no call changes the class or key type of an object or copy, the duplicate-replacing option is off, and Diffie-Hellman private keys are left out; without the first, second and last the statement is refuted (values in the clear)."
  },
  {
   "property": "C29",
   "status": "proved",
   "theorems": [
    "C29_same_key",
    "C29_secrets_kept",
    "C29_login_reads",
    "C29_moved"
   ],
   "note": "Over any history of calls, restarts, crashes and database failures in which the token is not initialised anew, the key loaded by any later login is the one that sealed the stored values, so every untouched record shows the same plain values, to either user logging in with the PIN set last; a value sealed for one object is not opened in the record of another. Sealing laws (value_laws, pin_laws) are hypotheses met by the toy instance."
  },
  {
   "property": "C30",
   "status": "proved",
   "theorems": [
    "C30_init_token_erases",
    "C30_wrong_pin_changes_nothing",
    "C30_open_session_refused"
   ],
   "note": "Every history from an empty machine, all outcomes. The laws of the PIN-based key sealing are hypotheses. A C_InitToken interrupted by a database failure is outside the property (it returns an error)."
  },
  {
   "property": "C31",
   "status": "partial",
   "theorems": [
    "C31_merged_partial",
    "C31_refused",
    "C31_history",
    "C31_limit_refuted",
    "C31_panic_refuted",
    "C31_file_refuted",
    "C31_refused_refuted"
   ],
   "note": "Proved for every pair of configurations when enough slot numbers are left (room): the merged configuration has distinct numbers and storages, the slots that were there are unchanged, every new slot is present, and added slots get unused numbers; and for every history of C_Initialize/C_Finalize in builds with overflow checks. Missing, because false in the code: near 2^32 numbers collide (or the call panics), the default file is not checked for duplicates, and a refused configuration stays merged in part without numbers."
  },
  {
   "property": "C32",
   "status": "partial",
   "theorems": [
    "C32_no_cycle_partial",
    "C32_progress_partial",
    "C32_login_refuted",
    "C32_fips_refuted"
   ],
   "note": "Proved for every number of threads, every list of calls and every interleaving, as long as on no slot C_Login/C_Logout run beside calls that keep their session locked while they lock the token (and, in fips builds, without C_DeriveKey, C_EncapsulateKey, C_DecapsulateKey). The excluded mixes do deadlock: C_Login against C_SignInit, and in fips builds C_DeriveKey against any such call on its session."
  },
  {
   "property": "C33",
   "status": "partial",
   "theorems": [
    "C33_retry_partial",
    "C33_length_refuted",
    "C33_aes_partial",
    "C33_pad_refuted",
    "C33_cts_refuted",
    "C33_ctr_refuted",
    "C33_message_refuted"
   ],
   "note": "For every call with an output buffer: if the mechanism keeps its state on a length query and on CKR_BUFFER_TOO_SMALL (retry_law), then after such an answer the operation is active and the repeated call has exactly the result and effect it would have had at first. The law is proved for the AES operations except CTS, CTR with a counter limit, one-shot CBC_PAD and CCM encryption. Refuted in general: one-shot CBC_PAD encryption with room for the data only takes the data in twice and returns a wrong ciphertext; CTS and limited CTR fail on the repeated call; C_Sign and C_SignFinal do not report the length needed. C_EncryptMessage with too small a buffer leaves the message begun, so that the repeated call is refused (C33_message_refuted). Missing: the law for RSA and EC."
  },
  {
   "property": "C34",
   "status": "partial",
   "theorems": [
    "C34_encrypt_partial",
    "C34_decrypt_partial",
    "C34_round_trip_partial",
    "C34_pieces_round_trip_partial",
    "C34_digest",
    "C34_hmac",
    "C34_cmac",
    "C34_aes_mac",
    "C34_gcm_refuted",
    "C34_pad_refuted",
    "C34_ctr_refuted",
    "C34_wrap_refuted",
    "C34_ccm_partial",
    "C34_ccm_round_trip_partial",
    "C34_cts_partial",
    "C34_ccm_refuted",
    "C34_cts_refuted"
   ],
   "note": "Digests, HMAC, CMAC and AES-MAC are proved for every chunking. AES ECB, CBC, padded CBC, CTR with 128 counter bits, CFB/OFB and GCM are proved for every chunking when encrypting; when decrypting, padded CBC needs pieces that are whole blocks and GCM needs pieces after the first to be no longer than the tag: both conditions are necessary, as the refutations show. CTR with a shorter counter and key wrapping are refuted. CCM is proved for every chunking of a message of the announced length up to 1 MiB, in both directions; further bytes are dropped in silence (C34_ccm_refuted). CTS takes one piece and refuses a second; with the room it asks for it may fail or panic (C34_cts_refuted). The other mechanisms are not modelled in pieces. OpenSSL is a record of functions, with its buffering in EVP as documented."
  },
  {
   "property": "C35",
   "status": "partial",
   "theorems": [
    "C35_pbkdf2",
    "C35_pbkdf2_zero_refuted",
    "C35_sp800_partial",
    "C35_sp800_total",
    "C35_sp800_bits_refuted",
    "C35_sp800_wrap_refuted",
    "C35_sp800_panic_refuted",
    "C35_tls_prf",
    "C35_tls_keys",
    "C35_ssh",
    "C35_simple",
    "C35_extract_partial",
    "C35_extract_refuted",
    "C35_hkdf",
    "C35_hkdf_total",
    "C35_hkdf_steps",
    "C35_hkdf_prefix",
    "C35_hkdf_flag_refuted",
    "C35_hkdf_null_refuted",
    "C35_hkdf_once"
   ],
   "note": "Proved for every input: PBKDF2 (HMAC), TLS PRF and key block, SSH, concatenation and xor, SP 800-108 counter and feedback (any MAC) with the length field counted in bytes. Refuted: PBKDF2 with 0 iterations gives an all-zero key; SP 800-108 L is in bytes not bits, its greatest value is written 0, 40/48/56-bit fields panic; CKM_EXTRACT_KEY_FROM_KEY at a multiple of 8 bits mixes neighbouring bytes. HKDF: proved to be RFC 5869 with the law that OpenSSL computes extract and expand (kdf_law of HkdfSpec.v); refuted for flags other than 0 and 1, and a null info pointer is read when only extracting. Missing: the FIPS variants, double pipeline mode (refused by the code)."
  },
  {
   "property": "C36",
   "status": "proved",
   "theorems": [
    "C36_uninitialised_refused",
    "C36_initialised",
    "C36_finalize",
    "C36_initialize_fresh"
   ],
   "note": ""
  },
  {
   "property": "C37",
   "status": "proved",
   "theorems": [
    "C37_slot_list",
    "C37_mechanism_list",
    "C37_interface_list",
    "C37_null_count"
   ],
   "note": "The list itself is given by list_result of Spec.v."
  },
  {
   "property": "C38",
   "status": "partial",
   "theorems": [
    "C38_faithful",
    "C38_round_trip",
    "C38_other_blob",
    "C38_refused_partial",
    "C38_refused_refuted",
    "C38_dropped_refuted",
    "C38_usable_refuted"
   ],
   "note": "All session states, all byte strings. Missing because false: a genuine blob with several operations may be refused half way (refuted), operations that cannot be saved are left out silently (refuted), a restored operation is unusable in a session that has begun none (refuted). That nobody else can make a sealed blob is a law of the abstract sealing (AES-GCM)."
  },
  {
   "property": "C39",
   "status": "partial",
   "theorems": [
    "C39_partial",
    "C39_sessions_refuted",
    "C39_store_refuted",
    "C39_set_refuted",
    "C39_settable_refuted",
    "C39_wrap_refuted"
   ],
   "note": "Proved for every history, of any length, of generations and verifications done one at a time whose new counters the database takes: every password given out or accepted is the RFC 4226 value of a counter above all earlier ones. Refuted otherwise: two operations begun before either ends give the same password; a failed store gives the password out and repeats it; C_SetAttributeValue can set the counter back; it wraps at 2^64. The sessions, logins and locks around the calls are those of Api.v and are not repeated in this model."
  },
  {
   "property": "C40",
   "status": "partial",
   "theorems": [
    "C40_null_refused",
    "C40_no_null_access_partial",
    "C40_null_access_refuted",
    "C40_tag_refuted"
   ],
   "note": "False for the pointers listed in unchecked_ok (Spec.v); proved for all others. A null tag pointer in the parameter of a message is dereferenced (C40_tag_refuted); the other pointers inside mechanism parameters belong to the abstract backend."
  },
  {
   "property": "C41",
   "status": "proved",
   "theorems": [
    "C41_other_objects_untouched"
   ],
   "note": "`about` of Spec.v lists the exceptions; creating an object is one only on a slot configured to deduplicate objects."
  },
  {
   "property": "C42",
   "status": "proved",
   "theorems": [
    "C42_slots_isolated"
   ],
   "note": "For the calls other than C_Initialize, C_Finalize and the end of the process. Slots on the same database file are refused by the configuration (C31)."
  },
  {
   "property": "C43",
   "status": "partial",
   "theorems": [
    "C43_generated",
    "C43_pair",
    "C43_created_partial"
   ],
   "note": "Full for C_GenerateKey and C_GenerateKeyPair. C_CreateObject: proved where the token does not deduplicate and the object is not a trust object; otherwise the call may return the handle of an equal object that exists, by design. Stated for the attribute types an application chooses; the values of key material come from the backend and are not part of it."
  },
  {
   "property": "C44",
   "status": "partial",
   "theorems": [
    "C44_counter_partial",
    "C44_xor_partial",
    "C44_fixed_bits",
    "C44_xor_refuted",
    "C44_bits_refuted"
   ],
   "note": "Proved for the counter generators for any sequence of calls, if every generating message leaves the token the same number of bits; for the XOR generator if the caller restores its buffer before each message. Refuted in general: with CKG_GENERATE_COUNTER_XOR a buffer that is handed on gets the first IV again in the fourth message, and changing the number of fixed bits between messages repeats counter IVs. CKG_GENERATE_RANDOM is the random source and not claimed."
  },
  {
   "property": "C45",
   "status": "partial",
   "theorems": [
    "C45_encrypt_partial",
    "C45_decrypt_partial",
    "C45_single",
    "C45_round_trip_partial",
    "C45_history",
    "C45_refused_partial",
    "C45_ccm_refuted",
    "C45_ccm_second_refuted",
    "C45_plaintext_refuted",
    "C45_nonce_refuted",
    "C45_stuck_refuted"
   ],
   "note": "Proved for GCM with any history and for CCM as long as no earlier message of the operation was given in pieces; a message refused at its beginning leaves the operation as it was, unless its IV could not be generated. Refuted: CCM keeps the data of a message given in pieces and prepends it to the next one; a GCM message with a wrong tag leaves its plaintext in the output buffer; a CCM nonce of 7 bytes allows one byte of data only; after a message whose IV could not be generated no other message is taken. The cipher itself is abstract."
  },
  {
   "property": "C46",
   "status": "partial",
   "theorems": [
    "C46_partial",
    "C46_right_pin_partial",
    "C46_new_pin",
    "C46_no_key",
    "C46_any_pin_refuted",
    "C46_init_pin_refuted",
    "C46_old_pin_refuted",
    "C46_locked_out_refuted"
   ],
   "note": "Proved: in a new process no sequence of calls that does not give the right PIN logs anyone in or changes anything; the right PIN is accepted there if no other was tried before; C_InitPIN and C_SetPIN make the new PIN the one a new process accepts. False beyond that, for any cryptography that meets the laws: after one login and logout every PIN is accepted, because the derived key of the password entry stays in the cache under its salt (C46_any_pin_refuted); so it is right after C_InitPIN (C46_init_pin_refuted); C_SetPIN of a logged-in user accepts any old PIN (C46_old_pin_refuted); and a wrong PIN whose key decrypts without a padding error shuts out the right one until the process ends (C46_locked_out_refuted). Missing: the theorem holds only until the right PIN is given."
  },
  {
   "property": "C47",
   "status": "partial",
   "theorems": [
    "C47_partial",
    "C47_others",
    "C47_ready",
    "C47_value_refuted",
    "C47_mechanisms_refuted",
    "C47_pin_change_refuted",
    "C47_ciphertext_refuted",
    "C47_old_database_refuted"
   ],
   "note": "Proved: every object whose attributes can be held (no value that looks like the marker for an empty value, numbers below 2^32, attributes with a column) is read back with the same attributes after any calls that give no wrong PIN and do not change or delete it. False beyond that: the value a5 00 5a is read back empty (C47_value_refuted); CKA_ALLOWED_MECHANISMS is not stored, so a restricted key is read back without restriction (C47_mechanisms_refuted); after a change of the PIN no secret can be read again (C47_pin_change_refuted); a public secret key is read without login with ciphertext for its value (C47_ciphertext_refuted); and after columns were added to an old database no object can be read in that process (C47_old_database_refuted)."
  },
  {
   "property": "C48",
   "status": "partial",
   "theorems": [
    "C48_partial",
    "C48_modified",
    "C48_sensitive",
    "C48_checked_partial",
    "C48_login",
    "C48_forged_refuted",
    "C48_logged_out_refuted",
    "C48_twice_refuted"
   ],
   "note": "Proved: in the row of a new private or secret key, and after a C_SetAttributeValue that gives each attribute once, every column of a sensitive attribute holds the encryption of its value under a key from the master key and a salt drawn in the call, and these are all attributes that the object types declare secret; an authenticated attribute is returned to a logged-in user only with a signature that is a nonempty beginning of its MAC. False beyond that: a signature of one byte is enough (C48_forged_refuted); without login nothing is checked (C48_logged_out_refuted); a secret given twice in one C_SetAttributeValue is stored as it is (C48_twice_refuted)."
  },
  {
   "property": "C49",
   "status": "proved",
   "theorems": [
    "C49_ecdsa_forms",
    "C49_room"
   ],
   "note": "For every field size below 2^28 bytes and every pair of numbers: both conversions give what the specification (shortest encoding of the number) says, they are inverse to each other, and for fields up to 120 bytes the DER form fits the room the code leaves. The tag and length handling of the asn1 crate is modelled from its documentation."
  },
  {
   "property": "C50",
   "status": "partial",
   "theorems": [
    "C50_rsa_transport",
    "C50_same",
    "C50_trailing",
    "C50_zero_refuted"
   ],
   "note": "The round trip is proved for all keys whose parts are not empty and whose modulus and public exponent are not zero. The second half is false: a wrapped key with public exponent zero, or with an INTEGER of no content, panics (C50_zero_refuted, C50_no_content_refuted), so does wrapping a key created with an empty prime (C50_empty_prime_refuted); a third prime is silently dropped. Missing: a wrapped key with PKCS#8 attributes, and the template checks around it (Create.v has those)."
  },
  {
   "property": "C51",
   "status": "proved",
   "theorems": [
    "C51_sign",
    "C51_sign_whole",
    "C51_verify",
    "C51_verify_whole",
    "C51_round",
    "C51_digest",
    "C51_domain",
    "C51_sound",
    "C51_length",
    "C51_verify_length",
    "C51_signature_length"
   ],
   "note": "For every key with the laws of suits (SigSpec.v) and all families of mechanisms; the mechanisms whose data the module keeps itself (EdDSA, ML-DSA and SLH-DSA without OpenSSL updates) up to their limit of one MiB. ECDSA fields up to 120 bytes. The calls are those of the operation traits with a buffer of the exact size; the API level around them is Api.v (C20, C33). Toy cases for each family: toy_rounds."
  },
  {
   "property": "C52",
   "status": "partial",
   "theorems": [
    "C52_finished",
    "C52_over",
    "C52_over_single_partial",
    "C52_piece_ends_partial",
    "C52_lost_piece",
    "C52_lost_piece_refuted",
    "C52_wrong_code",
    "C52_wrong_code_refuted"
   ],
   "note": "Proved: a finished operation refuses every call and stays as it was; the final call always finishes; the single call too, except on more than one MiB with the mechanisms that keep the data; ML-DSA ends when a piece is refused. False: with EdDSA a refused piece (over one MiB in all) leaves the operation active, and C_SignFinal then signs the earlier pieces only (C52_lost_piece, _refuted); a wrong signature is answered by CKR_DEVICE_ERROR with all families but EdDSA (C52_wrong_code, _refuted)."
  },
  {
   "property": "C53",
   "status": "partial",
   "theorems": [
    "C53_round",
    "C53_length_partial",
    "C53_small_partial",
    "C53_refused",
    "C53_wrap_partial",
    "C53_wrap_small",
    "C53_once",
    "C53_fits",
    "C53_zero_buffer_refuted",
    "C53_x509_refuted",
    "C53_oaep_panic_refuted",
    "C53_short_buffer_refuted",
    "C53_padded_modulus_refuted"
   ],
   "note": "Proved for all keys with the laws of enc_laws: round trips of encryption and wrapping, the announced length suffices, small buffers are refused without effect, refused data ends the operation. False: a buffer of length zero that is not null is answered by CKR_OK with the full length though nothing was written; the length of a CKM_RSA_X_509 output cannot be asked for and that mechanism, although announced for it, does not wrap; OAEP with SHA-512 and a key of 1024 bits underflows (a panic with overflow checks); the code for buffers shorter than the modulus is never reached; a key whose modulus was given with a leading zero encrypts but never signs."
  },
  {
   "property": "C54",
   "status": "partial",
   "theorems": [
    "C54_ecdh_value",
    "C54_ecdh_same",
    "C54_ecdh_made",
    "C54_ffdh_same",
    "C54_ffdh_value_partial",
    "C54_ffdh_value_refuted",
    "C54_ffdh_full_refuted",
    "C54_short_point_refuted",
    "C54_shared_refused",
    "C54_long_refused",
    "C54_once"
   ],
   "note": "For ECDH with uncompressed points both sides get the same key, and its value is the end of the secret or the output of the function named, for every template, key type, KDF and spelling of the point. For finite field Diffie-Hellman both sides get the same key, but the value is the end of the secret only if the secret does not begin with a zero byte: otherwise (one secret in 256) a shorter key is taken from the wrong place, and a key of full size is too short. An encoded public value of X25519 or X448 is not decoded. The laws of the group (size of the secret, both sides agree) are hypotheses about OpenSSL; compressed points are not covered."
  },
  {
   "property": "C55",
   "status": "partial",
   "theorems": [
    "C55_wrapped",
    "C55_encapsulated"
   ],
   "note": "For any two reachable states of one or two tokens: if C_WrapKey gives a wrapped secret key and C_UnwrapKey makes a secret key of it, the new key has the value of the first (cut to CKA_VALUE_LEN for AES keys); if C_EncapsulateKey and C_DecapsulateKey both make a key, both have the same value. Session and token objects, sensitive or not. That the mechanism undoes what it did (undoes, agrees of WrapSpec.v) is a hypothesis about the backend and the two keys; for RSA it is C53. Missing: private keys, which are wrapped as PKCS#8."
  },
  {
   "property": "C56",
   "status": "partial",
   "theorems": [
    "C56_stays_partial",
    "C56_locked_partial",
    "C56_refuted"
   ],
   "note": "Proved for every history, restarts and crashes included, in which objects are made only while some handle names the stored object. What is missing is false: a template of C_GenerateKey, C_UnwrapKey or C_DeriveKey may give CKA_UNIQUE_ID, and after a restart, while no handle names the stored object, the new key replaces it although it is neither modifiable nor destroyable (C56_refuted). The slot must not be set up to replace equal objects on C_CreateObject."
  },
  {
   "property": "C57",
   "status": "partial",
   "theorems": [
    "C57_components",
    "C57_value_partial",
    "C57_class_refuted",
    "C57_secret_refuted"
   ],
   "note": "The components (RSA numbers, EC parameters and point, DH parameters, parameter set, seed) are proved never to change for any history. CKA_VALUE of public and private keys is proved for histories in which no C_SetAttributeValue changes the class or the key type, and false otherwise: three calls replace the private value of a stored EC key under the same handle. CKA_VALUE of secret keys can be set by C_SetAttributeValue, to a length no AES key has."
  },
  {
   "property": "C58",
   "status": "partial",
   "theorems": [
    "C58_derived",
    "C58_generated",
    "C58_password",
    "C58_pair",
    "C58_created_partial",
    "C58_copied_partial"
   ],
   "note": "Derived and generated keys are complete. C_CreateObject is proved for tokens that do not deduplicate; on the others the call may update an object that is there. Copies are proved for templates that do not change the class, of objects with one class. Key pairs are proved for the parts that are byte strings. Derivations that give several keys (CKM_SP800_108 with additional keys, TLS key and MAC) are not covered."
  },
  {
   "property": "C59",
   "status": "partial",
   "theorems": [
    "C59_session",
    "C59_stored_partial",
    "C59_public_partial",
    "C59_secret_partial",
    "C59_stuck",
    "C59_refuted"
   ],
   "note": "Session objects: proved. Stored objects: proved if the storage answers and the record can be read. A record can be read if the module knows its class and type and it has no secret attributes (C59_public_partial), or, for every kind and every history from C_InitToken on in which no call retypes an object, if the key of the token is in memory (C59_secret_partial). False without that: C_SetAttributeValue accepts a CKA_CLASS the module does not know (CKA_CLASS is not unchangeable), after which the object can neither be destroyed nor changed back (C59_refuted; C59_stuck for every such record)."
  },
  {
   "property": "C60",
   "status": "partial",
   "theorems": [
    "C60_handle",
    "C60_record_partial",
    "C60_refuted"
   ],
   "note": "The handle: proved for every state and every failure. The record: proved if no database call fails. False otherwise: Token::destroy_object ignores the result of the removal and returns CKR_OK, and the object is found again after a restart (C60_refuted)."
  }
 ]
}