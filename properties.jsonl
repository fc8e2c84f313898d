{"id": "C01", "title": "Session handles are fresh", "statement": "Between one C_Initialize and the next C_Finalize, C_OpenSession never returns CK_INVALID_HANDLE, a handle that is currently open on any slot, or a handle that was returned earlier and since closed.", "quantifier": "every sequence of API calls, on any number of slots and sessions", "why_tests_cant": "A test opens a handful of sessions; reuse only shows up after particular interleavings of open, close, close-all and failures.", "anchors": ["src/lib.rs:State::new_session", "src/lib.rs:State::drop_session", "src/fns/sessmgmt.rs:open_session"]}
{"id": "C02", "title": "Calls on a session that is not open are refused and change nothing", "statement": "Any session-taking call whose handle is not currently open returns CKR_SESSION_HANDLE_INVALID (or CKR_CRYPTOKI_NOT_INITIALIZED / CKR_ARGUMENTS_BAD, or CKR_KEY_NOT_NEEDED from C_SetOperationState given an encryption key) and leaves every session, object, login and stored datum unchanged; and the two handle tables (module-wide and per slot) always agree about which handles are open.", "quantifier": "every reachable state, every handle value, every session-taking call", "why_tests_cant": "Needs every state a history can reach, including after partial failures.", "anchors": ["src/lib.rs:State::get_session", "src/lib.rs:State::get_session_mut", "src/slot.rs:Slot::get_session"]}
{"id": "C03", "title": "Session states agree with the login state", "statement": "C_GetSessionInfo on any open session reports the state determined by its read/write mode and by who is logged in to the token: public, user or SO functions.", "quantifier": "every API history, every session of the slot, sessions opened before or after login", "why_tests_cant": "The relation couples all sessions of a slot with the token across login, logout, open, close, PIN locking.", "anchors": ["src/session.rs:Session::new", "src/session.rs:Session::change_session_state", "src/slot.rs:Slot::change_session_states", "src/fns/sessmgmt.rs:login"]}
{"id": "C04", "title": "No read-only session coexists with a logged-in security officer", "statement": "At no time is the SO logged in to a token while a read-only session is open on it.", "quantifier": "every API history", "why_tests_cant": "Two guards in different calls (C_Login, C_OpenSession) must cover all orders.", "anchors": ["src/fns/sessmgmt.rs:open_session", "src/fns/sessmgmt.rs:login", "src/slot.rs:Slot::has_ro_sessions"]}
{"id": "C05", "title": "Login is exclusive and idempotence is refused", "statement": "While a user is logged in, C_Login for the same user returns CKR_USER_ALREADY_LOGGED_IN and for the other user CKR_USER_ANOTHER_ALREADY_LOGGED_IN, (or CKR_SESSION_READ_ONLY_EXISTS for an SO login while a read-only session is open), without consulting or changing PIN counters; a failing C_Login leaves nobody newly logged in.", "quantifier": "every API history, every PIN, every user type", "why_tests_cant": "Must hold from every reachable login state, including those after failing logins.", "anchors": ["src/token.rs:Token::login", "src/token.rs:Token::auth_user", "src/fns/sessmgmt.rs:login"]}
{"id": "C06", "title": "Closing the last session logs out", "statement": "Whenever no session is open on a slot, nobody is logged in to its token: after the last C_CloseSession, after C_CloseAllSessions, at start; so private token objects cannot be reached by the next session without a new login.", "quantifier": "every API history", "why_tests_cant": "An invariant over histories including C_SetPIN's temporary login.", "anchors": ["src/lib.rs:State::drop_session", "src/fns/sessmgmt.rs:close_all_sessions", "src/token.rs:Token::logout", "src/fns/stmgmt.rs:set_pin"]}
{"id": "C07", "title": "PIN retry lockout", "statement": "After ten consecutive failed authentications of a user, no PIN, correct or not, is accepted for that user, whatever mix of calls (C_Login, C_SetPIN, C_InitToken, context-specific login), restarts and crashes happens between them, until the PIN is reset by its owner's administrator (C_InitPIN, C_InitToken).", "quantifier": "every history of authentication attempts, restarts and crashes, every PIN value", "why_tests_cant": "Brute-force resistance is a property of unbounded histories including storage write failures.", "anchors": ["src/storage/aci.rs:StorageACI::authenticate", "src/storage/aci.rs:StorageAuthInfo::locked", "src/storage/format.rs:StdStorageFormat::auth_user", "src/storage/sqlite.rs:SqliteStorage::store_user"]}
{"id": "C08", "title": "Only the current PIN authenticates", "statement": "When not locked, authentication of a user succeeds exactly for the PIN most recently set for that user, and a success resets the failure counter to zero.", "quantifier": "every history of PIN changes and attempts, every PIN", "why_tests_cant": "Ranges over all PINs and all histories of changes.", "anchors": ["src/storage/aci.rs:encrypt_key", "src/storage/aci.rs:decrypt_key", "src/storage/format.rs:StdStorageFormat::set_user_pin", "src/token.rs:Token::set_pin"]}
{"id": "C09", "title": "Private token objects are unreachable without login", "statement": "When nobody is logged in, no call returns attributes of, finds, copies, modifies, destroys or uses as a key any token object whose CKA_PRIVATE is true.", "quantifier": "every reachable state, every object, every template, every call taking an object handle", "why_tests_cant": "A confidentiality statement over all objects and templates.", "anchors": ["src/token.rs:Token::get_object_by_handle", "src/token.rs:Token::get_object_attrs", "src/token.rs:Token::search_objects", "src/token.rs:Token::copy_object"]}
{"id": "C10", "title": "Read-only sessions cannot change token objects", "statement": "No call made on a read-only session creates, modifies or destroys a token (persistent) object.", "quantifier": "every reachable state, every call, every template", "why_tests_cant": "Requires every creating path (create, copy, generate, unwrap, derive) and every template.", "anchors": ["src/fns/mod.rs:fail_if_cka_token_true", "src/fns/objmgmt.rs:copy_object", "src/fns/objmgmt.rs:set_attribute_value", "src/fns/objmgmt.rs:destroy_object"]}
{"id": "C11", "title": "Secret attribute values are never returned for sensitive or unextractable keys", "statement": "If a key object has CKA_SENSITIVE true or CKA_EXTRACTABLE false, C_GetAttributeValue writes none of its secret attribute values, reports CKR_ATTRIBUTE_SENSITIVE and CK_UNAVAILABLE_INFORMATION for each of them, and still processes the others.", "quantifier": "every object of every class, every template in any order with repetitions, every buffer size", "why_tests_cant": "All templates and objects.", "anchors": ["src/object/factory.rs:ObjectFactories::get_object_attributes", "src/object/mod.rs:Object::is_sensitive", "src/object/mod.rs:Object::is_extractable"]}
{"id": "C12", "title": "A key once protected stays protected", "statement": "Once a key has CKA_SENSITIVE true (or CKA_EXTRACTABLE false), no later sequence of C_SetAttributeValue and C_CopyObject calls makes its secret value readable through that object or through any copy of it.", "quantifier": "every sequence of attribute changes and copies, every template", "why_tests_cant": "An invariant over unbounded sequences of modifications and copies.", "anchors": ["src/object/factory.rs:check_set_attributes", "src/object/factory.rs:default_copy", "src/object/factory.rs:set_object_attributes"]}
{"id": "C13", "title": "One-way attributes only move one way", "statement": "C_SetAttributeValue and C_CopyObject never change CKA_SENSITIVE or CKA_WRAP_WITH_TRUSTED from true to false, nor CKA_EXTRACTABLE or CKA_COPYABLE from false to true.", "quantifier": "every object, every template including repeated attributes", "why_tests_cant": "Repeated attributes and arbitrary template order defeat example tests.", "anchors": ["src/object/factory.rs:check_set_attributes", "src/object/key.rs", "src/object/factory.rs:default_copy"]}
{"id": "C14", "title": "Attribute queries respect the caller's buffers", "statement": "C_GetAttributeValue writes only into non-null buffers and never more than their stated length; it reports the exact length for null buffers, CK_UNAVAILABLE_INFORMATION for attributes that are missing, sensitive or too large, returns CKR_OK exactly when none of these happened, and handles each template entry independently of the others.", "quantifier": "every object and template", "why_tests_cant": "Memory safety of the caller's buffers for every template.", "anchors": ["src/object/factory.rs:ObjectFactories::get_object_attributes"]}
{"id": "C15", "title": "Modifiable, copyable and destroyable flags are honoured", "statement": "An object with CKA_MODIFIABLE false is never changed by C_SetAttributeValue; one with CKA_COPYABLE false is never the source of a successful C_CopyObject; one with CKA_DESTROYABLE false is never removed by C_DestroyObject; and refused calls change nothing.", "quantifier": "every reachable state, object and template", "why_tests_cant": "All objects and templates.", "anchors": ["src/object/factory.rs:set_object_attributes", "src/object/factory.rs:ObjectFactories::copy", "src/token.rs:Token::destroy_object", "src/token.rs:Token::set_object_attrs"]}
{"id": "C16", "title": "C_SetAttributeValue is all or nothing", "statement": "If C_SetAttributeValue returns an error the object's attributes are exactly what they were; if it succeeds every attribute of the template has the new value and no other attribute changed.", "quantifier": "every object and template, including templates whose last entry is invalid", "why_tests_cant": "Partial updates appear only for particular template orders.", "anchors": ["src/object/factory.rs:set_object_attributes", "src/token.rs:Token::set_object_attrs", "src/storage/format.rs:StdStorageFormat::update"]}
{"id": "C17", "title": "Object handles are unique and not recycled", "statement": "Two live objects never share a handle, an object keeps its handle while it lives, and a handle is never given to another object while the token is not re-initialised.", "quantifier": "every history of create, copy, generate, find, destroy, close session", "why_tests_cant": "Handle reuse appears only in long histories.", "anchors": ["src/token.rs:Handles", "src/token.rs:Token::insert_object", "src/storage/format.rs:StdStorageFormat::search"]}
{"id": "C18", "title": "Session objects live exactly as long as their session", "statement": "Closing a session destroys all session objects created in it and no other object; C_CloseAllSessions destroys all session objects of the slot's sessions and no token object.", "quantifier": "every reachable state and session", "why_tests_cant": "Quantifies over all sets of objects and sessions.", "anchors": ["src/token.rs:Token::drop_session_objects", "src/fns/sessmgmt.rs:close_session", "src/fns/sessmgmt.rs:close_all_sessions"]}
{"id": "C19", "title": "Object search returns exactly the matching visible objects", "statement": "The handles delivered by C_FindObjectsInit/C_FindObjects are, without repetition, exactly the objects visible to the caller whose attributes match every template entry; how the application splits C_FindObjects calls does not change the delivered sequence.", "quantifier": "every object population, every template, every sequence of max-count arguments", "why_tests_cant": "All populations and all chunkings.", "anchors": ["src/token.rs:Token::search_objects", "src/session.rs:SessionSearch::results", "src/storage/sqlite.rs:SqliteStorage::search", "src/fns/objmgmt.rs:find_objects"]}
{"id": "C20", "title": "One active operation per kind", "statement": "While an operation of a kind (sign, verify, encrypt, decrypt, digest, search, ...) is active in a session, another init of that kind returns CKR_OPERATION_ACTIVE and the active operation is undisturbed; a continuation without an active operation returns CKR_OPERATION_NOT_INITIALIZED; operations in different sessions never affect one another.", "quantifier": "every history over any number of sessions", "why_tests_cant": "Interference between sessions and kinds is a history property.", "anchors": ["src/session.rs:impl_mop", "src/session.rs:Session::set_operation", "src/session.rs:Session::check_no_op"]}
{"id": "C21", "title": "Keys requiring per-use authentication are not usable without it", "statement": "A private-key operation (sign, decrypt) started with a key whose CKA_ALWAYS_AUTHENTICATE is true produces no output before a successful context-specific C_Login made after its init call.", "quantifier": "every sequence of calls in the session between init and use", "why_tests_cant": "An attacker chooses the interleaving of other calls.", "anchors": ["src/session.rs:Session::check_login_status", "src/session.rs:Session::set_operation", "src/fns/sessmgmt.rs:login", "src/fns/signing.rs:sign_init"]}
{"id": "C22", "title": "Key and slot mechanism restrictions are enforced", "statement": "A key with CKA_ALLOWED_MECHANISMS is only ever used with a listed mechanism, and a mechanism removed by the slot's configured allow or deny list is neither listed nor usable by any call; with an allow list exactly the listed supported mechanisms remain, with a deny list exactly the others.", "quantifier": "every key, mechanism, configuration list and operation", "why_tests_cant": "All combinations of lists and mechanisms.", "anchors": ["src/lib.rs:check_allowed_mechs", "src/token.rs:Token::set_mech_allow_list", "src/token.rs:Token::set_mech_deny_list", "src/config.rs:Slot::mech_list", "src/mechanism.rs:Mechanisms::filter_copy"]}
{"id": "C23", "title": "Multi-object creation is atomic", "statement": "If C_GenerateKeyPair or a multi-key C_DeriveKey returns an error, no object it created survives.", "quantifier": "every template pair and every failure point", "why_tests_cant": "Each failure point must be considered for each template.", "anchors": ["src/fns/keymgmt.rs:generate_key_pair", "src/fns/keymgmt.rs:derive_key", "src/token.rs:Token::destroy_object"]}
{"id": "C24", "title": "Key provenance attributes cannot be forged", "statement": "CKA_LOCAL, CKA_KEY_GEN_MECHANISM, CKA_ALWAYS_SENSITIVE, CKA_NEVER_EXTRACTABLE and CKA_TRUSTED of any key always have the values determined by how the key came to exist; no caller-supplied template to any creating or modifying call can choose them.", "quantifier": "every template to create, generate, unwrap, derive, copy and set", "why_tests_cant": "All templates and creation paths.", "anchors": ["src/object/factory.rs:internal_object_create", "src/object/factory.rs:OAFlags", "src/object/key.rs:key_generate", "src/object/factory.rs:default_copy"]}
{"id": "C25", "title": "Wrapping only exports exportable keys", "statement": "C_WrapKey never outputs material of a key whose CKA_EXTRACTABLE is false, nor of a key with CKA_WRAP_WITH_TRUSTED true under a wrapping key without CKA_TRUSTED, and only uses wrapping keys with CKA_WRAP true.", "quantifier": "every pair of keys and mechanism", "why_tests_cant": "All attribute combinations.", "anchors": ["src/fns/keymgmt.rs:wrap_key", "src/object/key.rs:default_export_for_wrapping"]}
{"id": "C26", "title": "Stored objects are read back unchanged", "statement": "An object accepted by the SQLite store is later fetched with exactly the attribute types and values it was stored with; a value that cannot be represented is refused at store time rather than altered.", "quantifier": "every object, every attribute type and value, every history of other stores and deletes", "why_tests_cant": "All values including boundary integers, empty strings, dates.", "anchors": ["src/storage/sqlite.rs:SqliteStorage::store_object", "src/storage/sqlite.rs:SqliteStorage::rows_to_objects", "src/storage/sqlite.rs:SqliteStorage::num_to_val"]}
{"id": "C27", "title": "A crash leaves each stored object old or new, never mixed", "statement": "If the process dies at any point while an object, token info or user record is written, the database afterwards contains either the complete previous version or the complete new one, and every other object is intact.", "quantifier": "every crash point in every database operation, every prior history", "why_tests_cant": "All crash points.", "anchors": ["src/storage/sqlite.rs:SqliteStorage::store_obj", "src/storage/sqlite.rs:SqliteStorage::remove_by_uid", "src/storage/sqlite.rs:SqliteStorage::db_reset", "src/storage/sqlite.rs:SqliteStorage::store_user"]}
{"id": "C28", "title": "Secrets are encrypted at rest", "statement": "After any history of calls, every secret attribute value of every token object in the database is ciphertext under the token's master key bound to that object's identity; no secret value chosen by the application is stored in the clear.", "quantifier": "every history of create, copy, generate, set-attribute calls and templates", "why_tests_cant": "All templates and histories; one path in the clear breaks it.", "anchors": ["src/storage/format.rs:StdStorageFormat::store", "src/storage/format.rs:StdStorageFormat::update", "src/storage/aci.rs:encrypt_data"]}
{"id": "C29", "title": "Changing PINs never loses stored secrets", "statement": "After any sequence of C_SetPIN and C_InitPIN by either user, either user logging in with the current PIN can read every secret stored before, and a value moved to another object's record does not decrypt.", "quantifier": "every sequence of PIN changes, logins, logouts and stores", "why_tests_cant": "History property over key wrapping.", "anchors": ["src/storage/aci.rs:StorageACI::key_to_user_data", "src/storage/aci.rs:StorageACI::authenticate", "src/storage/aci.rs:decrypt_data"]}
{"id": "C30", "title": "Initialising a token erases it", "statement": "After a successful C_InitToken, no object that existed before is reachable by any later call, no session object remains, nobody is logged in, the user PIN is unset and the SO PIN is the one given; C_InitToken with a wrong SO PIN on an initialised token, or with sessions open, changes nothing but the retry counter.", "quantifier": "every reachable prior state", "why_tests_cant": "All prior states.", "anchors": ["src/token.rs:Token::initialize", "src/storage/format.rs:StdStorageFormat::reinit", "src/fns/stmgmt.rs:init_token"]}
{"id": "C31", "title": "Slot configuration merging keeps slots distinct", "statement": "After merging a configuration into the running one, no two slots share a slot number or the same storage, existing slots keep number and storage, and slots without a number get an unused one.", "quantifier": "every pair of configurations", "why_tests_cant": "All configurations including numeric limits.", "anchors": ["src/config.rs:Config::from_init_args", "src/config.rs:Config::fix_slot_numbers"]}
{"id": "C32", "title": "The module never deadlocks", "statement": "Whatever calls concurrent threads make, some thread can always make progress: there is no cycle of threads each waiting for a lock another holds.", "quantifier": "every number of threads, every assignment of API calls, every schedule", "why_tests_cant": "Schedules are unbounded and rare.", "anchors": ["src/slot.rs:Slot::change_session_states", "src/fns/sessmgmt.rs:login", "src/fns/sessmgmt.rs:logout", "src/fns/signing.rs:sign_init", "src/lib.rs:GlobalState"]}
{"id": "C33", "title": "Length queries and too-small buffers do not consume the operation", "statement": "A call with a null output buffer, or one returning CKR_BUFFER_TOO_SMALL, leaves the operation active and its data unchanged, so that the repeated call with a large enough buffer gives the result the first would have given.", "quantifier": "every operation kind, every input, every buffer size", "why_tests_cant": "All sizes and all operation states.", "anchors": ["src/fns/signing.rs:sign", "src/fns/encryption.rs:encrypt", "src/fns/digest.rs:digest", "src/ossl/aes.rs"]}
{"id": "C34", "title": "Multi-part processing equals single-part", "statement": "Feeding data to a cipher, digest or MAC operation in any number of pieces of any sizes yields the same overall output as feeding it at once, and decrypting returns the original plaintext.", "quantifier": "every key, message and chunking", "why_tests_cant": "All chunkings.", "anchors": ["src/ossl/aes.rs", "src/native/hmac.rs", "src/hash.rs"]}
{"id": "C35", "title": "Key derivation output is independent of buffer splitting and matches its specification", "statement": "PBKDF2, SP800-108 (counter, feedback, double pipeline), HKDF, SSH and TLS derivations output exactly the requested number of bytes of the stream defined by their specification; when several keys are derived at once they are consecutive non-overlapping parts of that stream.", "quantifier": "every secret, parameter set, output length and split into keys", "why_tests_cant": "All lengths, in particular those not multiples of the hash size.", "anchors": ["src/native/pbkdf2.rs", "src/native/sp800_108.rs", "src/native/tlskdf.rs", "src/native/sshkdf.rs"]}
{"id": "C36", "title": "Module lifecycle", "statement": "Before C_Initialize and after C_Finalize every call needing the module returns CKR_CRYPTOKI_NOT_INITIALIZED (or an argument error: CKR_ARGUMENTS_BAD, CKR_KEY_NOT_NEEDED) and changes nothing; C_Finalize removes every session and its objects; re-initialising starts with no open session and nobody logged in.", "quantifier": "every history with any number of initialise/finalise cycles", "why_tests_cant": "Histories over cycles.", "anchors": ["src/lib.rs:State::initialize", "src/lib.rs:State::finalize", "src/fns/general.rs:initialize", "src/fns/general.rs:finalize"]}
{"id": "C37", "title": "List calls obey the two-call convention", "statement": "C_GetSlotList, C_GetMechanismList, C_GetInterfaceList with a null buffer report the exact count; with a buffer at least that large they fill exactly that many entries; with a smaller one they return CKR_BUFFER_TOO_SMALL and write no entry.", "quantifier": "every number of slots/mechanisms and every buffer size", "why_tests_cant": "All sizes.", "anchors": ["src/fns/stmgmt.rs:get_slot_list", "src/fns/stmgmt.rs:get_mechanism_list", "src/fns/general.rs:get_interface_list"]}
{"id": "C38", "title": "Saved operation state restores faithfully or not at all", "statement": "C_SetOperationState with the blob produced by C_GetOperationState re-creates the same active operations; with any other blob it returns an error and leaves the session's operations unchanged.", "quantifier": "every session state, every byte string", "why_tests_cant": "All byte strings as input to a parser.", "anchors": ["src/session.rs:Session::state_save", "src/session.rs:Session::state_restore"]}
{"id": "C39", "title": "One-time-password counters never go backwards", "statement": "Every successful HOTP generation uses a counter value never used before by that key, and an accepted verification makes that and all lower counter values unacceptable.", "quantifier": "every history of generate and verify calls", "why_tests_cant": "History property over a persisted counter.", "anchors": ["src/hotp.rs"]}
{"id": "C40", "title": "Null and malformed arguments are rejected without touching memory", "statement": "Calls whose required pointer arguments are null return CKR_ARGUMENTS_BAD (or the documented size-query behaviour) and never read or write through a null pointer.", "quantifier": "every combination of null and non-null pointer arguments", "why_tests_cant": "All combinations for all calls.", "anchors": ["src/fns/encryption.rs:encrypt_final", "src/fns/encryption.rs:decrypt_final", "src/fns/digest.rs:digest_final", "src/fns/signing.rs"]}
{"id": "C41", "title": "A call changes only the objects it is about", "statement": "An object that is not named by a C_SetAttributeValue or C_DestroyObject call, does not belong to a session being closed, is not a private session object at a login, logout or PIN change, is not on a token being re-initialised and is not the key of a one-time-password operation keeps its handle, its identity, its owner and all its attribute values across the call, whatever the call's arguments and result.", "quantifier": "every reachable state, every object, every call and argument combination", "why_tests_cant": "Negative statement about all other objects for every call; tests look at the object acted on.", "anchors": ["src/token.rs", "src/fns/objmgmt.rs", "src/storage/format.rs"]}
{"id": "C42", "title": "Slots do not influence one another", "statement": "A call on a slot, or on a session of a slot, leaves the tokens of all other slots exactly as they were.", "quantifier": "every reachable state, every call, every pair of slots", "why_tests_cant": "The tests use one slot per test.", "anchors": ["src/lib.rs", "src/slot.rs", "src/fns/sessmgmt.rs"]}
{"id": "C43", "title": "A creating call returns the handle of what it created", "statement": "When C_CreateObject, C_GenerateKey or C_GenerateKeyPair succeeds, each handle it returns named nothing before, names an object afterwards, and that object holds the value the template gave for every attribute the application chooses (label, identifier, flags, permitted operations, dates, key type). Every object that had a handle before keeps it, with the same attributes.", "quantifier": "every history, template, mechanism and backend result", "why_tests_cant": "The handle table is shared by all sessions and grows with the history, and every factory builds its object by its own rules.", "anchors": ["src/token.rs:Token::insert_object", "src/token.rs:Token::create_object", "src/storage/format.rs:StdStorageFormat::store", "src/object/factory.rs:internal_object_create", "src/fns/keymgmt.rs:generate_key_pair"]}
{"id": "C44", "title": "IVs made by the token do not repeat", "statement": "Within one message-based encryption operation, the initialisation vectors that C_EncryptMessage and C_EncryptMessageBegin generate and return are pairwise different, whatever messages are encrypted, refused or abandoned in between; when the generated bits are used up the call fails instead of repeating a value, and the bits declared fixed by the caller are kept.", "quantifier": "every sequence of message calls on one operation, every IV length, number of fixed bits and initial buffer contents, GCM and CCM", "why_tests_cant": "A repeat may need any number of messages and depends on the whole history of the operation; tests encrypt a handful of messages with one set of parameters.", "anchors": ["src/ossl/aes.rs: AesOperation::generate_iv", "src/ossl/aes.rs: AesOperation::init_msg_params", "src/ossl/aes.rs: AesOperation::msg_encrypt_new", "src/fns/encryption.rs: encrypt_message, encrypt_message_begin"]}
{"id": "C45", "title": "Messages are encrypted and authenticated on their own", "statement": "The output and tag of a message-based encryption are those of the message's own IV, associated data and data, however it is cut into pieces and whatever the operation did before; decryption returns the data only if the tag is right, gives back what was encrypted, and leaves nothing of the data with the caller otherwise.", "quantifier": "every state of the operation, every message, every division into pieces, every tag", "why_tests_cant": "What an earlier message leaves behind depends on the history of the operation, and every division of every message must give the same result.", "anchors": ["src/ossl/aes.rs: msg_encrypt_begin, msg_encrypt_next, msg_encrypt_final", "src/ossl/aes.rs: msg_decrypt_begin, msg_decrypt_next, msg_decrypt_final", "src/ossl/aes.rs: check_msg_params", "src/fns/encryption.rs: encrypt_message, encrypt_message_next, decrypt_message, decrypt_message_next"]}
{"id": "C46", "title": "Only the PIN set last opens a token kept in an NSS database", "statement": "On a token kept in an NSS database, a login or PIN change succeeds only with the PIN set last, and with that PIN it does succeed. Until it is given, nothing that needs a user works and nothing stored changes, whatever else is called and however often.", "quantifier": "every PIN, every sequence of calls of every length, every restart of the process, every database", "why_tests_cant": "Which keys are cached depends on the whole history of logins, and every wrong PIN has to be refused in every state.", "anchors": ["src/storage/nssdb/mod.rs: auth_user, set_user_pin, unauth_user", "src/storage/nssdb/ci.rs: KeysWithCaching, derive_key_internal, decrypt_data", "src/token.rs: login, logout, set_pin", "src/fns/stmgmt.rs: init_pin, set_pin"]}
{"id": "C47", "title": "Objects stored in an NSS database are read back as stored", "statement": "An object created on a token kept in an NSS database is read back with every attribute and value it was created with, after further calls, logouts, restarts of the process and logins with the PIN; creating other objects does not change it.", "quantifier": "every object whose attributes have columns, every sequence of later calls, every choice of attributes read", "why_tests_cant": "Encryption, signatures and the cache of derived keys depend on the history, and every attribute of every object has its own column and conversion.", "anchors": ["src/storage/nssdb/mod.rs: store, store_object, fetch, fetch_by_nssid, update", "src/storage/nssdb/ci.rs: encrypt_data, decrypt_data, make_signature, check_signature", "src/storage/nssdb/attrs.rs", "src/token.rs: insert_object, get_object_by_handle"]}
{"id": "C48", "title": "Secrets in an NSS database are stored encrypted, and authenticated attributes are checked", "statement": "No secret value of a key ever stands in an NSS database as it is: it is stored encrypted under a key that comes from the PIN and a salt of its own. Of the attributes that are signed, a value that was not signed under the PIN's key is never returned.", "quantifier": "every key object, every database including one changed by somebody without the PIN, every object read", "why_tests_cant": "It has to hold for every attribute of every object and for every change an attacker can make to the file.", "anchors": ["src/storage/nssdb/mod.rs: store, update, fetch", "src/storage/nssdb/ci.rs: encrypt_data, check_signature, hmac_verify", "src/storage/nssdb/attrs.rs"]}
{"id": "C49", "title": "ECDSA signatures keep their numbers between the PKCS#11 form and the DER form", "statement": "A signature made by the token comes out as r and s on a fixed number of bytes each, and a signature given to the token is passed on as the DER encoding of exactly these two numbers, whatever leading zeros they have and whatever curve is used. Converting there and back gives the same bytes, and no signature is lost because it is short or long.", "quantifier": "every field size and every pair of numbers that fits in it", "why_tests_cant": "The padding cases (leading zeros, high bit set, long DER lengths) appear with a probability of one in hundreds or less per signature; all pairs of numbers have to be covered.", "anchors": ["src/ossl/ecdsa.rs: slice_to_sig_half, ossl_to_pkcs11_signature, pkcs11_to_ossl_signature", "src/kasn1/mod.rs: DerEncBigUint"]}
{"id": "C50", "title": "An RSA private key survives wrapping and unwrapping", "statement": "Wrapping an RSA private key exports the PKCS#8 encoding of exactly its numbers, and unwrapping what was exported, with the zero padding a wrapping mechanism may add, gives a key of the same numbers. Unwrapping data that is not such a key is refused with an error and never stops the process.", "quantifier": "every RSA private key, every amount of padding, every data handed to unwrap", "why_tests_cant": "It ranges over all keys, including those with short components, and over all byte strings an attacker can put in a wrapped key.", "anchors": ["src/rsa.rs: export_for_wrapping, import_from_wrapped, rsa_check_public_key_info", "src/kasn1/mod.rs: DerEncBigUint, PrivateKeyInfo", "src/kasn1/pkcs.rs: RsaPublicKey"]}
{"id": "C51", "title": "A signature does not depend on how the data is cut into pieces", "statement": "Signing data with any sequence of updates and a final call gives the signature a single call gives, and it is the key's signature of exactly that data (for the pre-hash post-quantum mechanisms: of the message FIPS 204/205 prescribe, which determines context, digest mechanism and digest). A signature is accepted if and only if the key accepts it for that data, whatever the pieces, and whether the signature is given at the start, at the end or in the only call. So what was signed in some pieces is accepted in any others.", "quantifier": "every mechanism of RSA, ECDSA, EdDSA, ML-DSA and SLH-DSA, every key, every data and every division of it, every signature", "why_tests_cant": "It ranges over all data, all divisions and all signatures, right and wrong, in five implementations that each keep their own state between calls.", "anchors": ["src/ossl/rsa.rs: Sign, Verify, VerifySignature of RsaPKCSOperation", "src/ossl/ecdsa.rs: EcdsaOperation", "src/ossl/eddsa.rs: EddsaOperation", "src/ossl/mldsa.rs: MlDsaOperation, hash_mldsa_m_prime", "src/ossl/slhdsa.rs", "ossl/src/signature.rs: OsslSignature"]}
{"id": "C52", "title": "A signing or verifying operation is over when it should be", "statement": "After the last or only call of a signing or verifying operation, and after any refused piece, the operation is over and every further call on it answers CKR_OPERATION_NOT_INITIALIZED: in particular no signature is ever made over only a part of the data given. A signature that does not match is answered by CKR_SIGNATURE_INVALID.", "quantifier": "every mechanism of the signature families, every sequence of calls, every data and signature", "why_tests_cant": "It concerns the state after failures, for all sequences of calls and all sizes of data, including sizes over one MiB.", "anchors": ["src/mechanism.rs: Sign, Verify, VerifySignature", "src/ossl/eddsa.rs: sign_update", "src/ossl/mldsa.rs: sign_update", "ossl/src/signature.rs: store_data"]}
{"id": "C53", "title": "RSA encryption and key transport give back what was put in", "statement": "Data encrypted with an RSA public key is decrypted by the private key to the same data, and a key wrapped is unwrapped to the same key, for every mechanism, every accepted key (whatever the encoding of its modulus), and every output buffer of at least the length the module announces for a null buffer. A smaller buffer is answered by CKR_BUFFER_TOO_SMALL and leaves the operation as it was; refused data ends it. No parameters stop the process. The same keys sign.", "quantifier": "every RSA key, mechanism, message and buffer length", "why_tests_cant": "It ranges over all key sizes with all digests, all messages and all buffer lengths, including zero.", "anchors": ["src/ossl/rsa.rs: encdec_new, max_message_len, encrypt, decrypt, encryption_len, wrap, unwrap", "ossl/src/asymcipher.rs: OsslAsymcipher", "src/fns/encryption.rs: encrypt, decrypt"]}
{"id": "C54", "title": "Key agreement gives both sides the key PKCS #11 defines", "statement": "When two parties derive a key with C_DeriveKey by ECDH or Diffie-Hellman, each from its own private key and the public value of the other, both obtain the same key. Its value is the last CKA_VALUE_LEN bytes of the shared secret (or as many as the key type takes), or that many bytes of the key derivation function the parameters name; it does not depend on whether a public point is given raw or as a DER octet string.", "quantifier": "every key pair, public value and its encoding, template, key type, KDF and shared data", "why_tests_cant": "The cases that go wrong depend on the bytes of the secret, one in 256 of them, and on the combination of sizes.", "anchors": ["src/ossl/ecdh.rs:ECDHOperation::derive", "src/ossl/ffdh.rs:FFDHOperation::derive", "ossl/src/derive.rs:EcdhDerive::derive", "ossl/src/derive.rs:FfdhDerive::derive"]}
{"id": "C55", "title": "A secret key survives wrapping, and both ends of a key encapsulation have the same key", "statement": "If C_WrapKey gives a wrapped form of a secret key, and C_UnwrapKey with the matching key and the same mechanism makes a key of it, on the same token or another, then the new key has the value of the wrapped one, or the first CKA_VALUE_LEN bytes of it if the template of an AES key says so. If C_EncapsulateKey gives a ciphertext and a key, and C_DecapsulateKey with the matching private key makes a key of that ciphertext, then both keys have the same value. This holds whether the keys are sensitive or not and whether they live in a session or on the token.", "quantifier": "every pair of reachable states, session, mechanism, key, template and buffer length", "why_tests_cant": "It ranges over all histories of both tokens, all key types and sizes, and all templates of the new key.", "anchors": ["src/fns/keymgmt.rs: wrap_key, unwrap_key, encapsulate_key, decapsulate_key", "src/object/key.rs: default_export_for_wrapping, default_import_from_wrapped", "src/aes.rs: AesKeyFactory::import_from_wrapped", "src/storage/format.rs: StdStorageFormat::store"]}
{"id": "C56", "title": "A stored object stays until a call asks for it to be changed or removed", "statement": "An object stored on a token keeps all its attributes, across restarts, crashes and logins of anyone, until C_DestroyObject or C_SetAttributeValue names it, C_InitToken initialises the token anew, or an operation advances the counter of the key. An object with CKA_DESTROYABLE and CKA_MODIFIABLE false stays whatever is called short of C_InitToken; in particular no call that makes an object replaces it.", "quantifier": "every reachable state, every stored object and every sequence of calls after it, restarts and crashes at any point included", "why_tests_cant": "It says what no sequence of calls does, whatever its length and whoever makes it; a test sees some sequences.", "anchors": ["src/storage/format.rs: StdStorageFormat::store, update, remove", "src/storage/sqlite.rs: store_obj, delete_object", "src/fns/objmgmt.rs: destroy_object, set_attribute_value", "src/object/key.rs: KeyFactory::key_generate"]}
{"id": "C57", "title": "The material of a key does not change", "statement": "The attributes that make up a public, private or secret key (RSA modulus and exponents, EC parameters and point, DH parameters, parameter set, and the value CKA_VALUE) stay the same for as long as a handle names the key, whatever calls are made. No sequence of C_SetAttributeValue, login, logout or other calls puts different key material behind the same handle. Secret components of stored keys are compared as they are stored.", "quantifier": "every configuration, every history of calls, every later history, every handle that names an object at both ends, and every attribute that is part of the key material", "why_tests_cant": "A test tries one call that changes one attribute; the claim is about every sequence of calls, including sequences whose steps are each allowed.", "anchors": ["src/object/factory.rs: check_set_attributes, set_object_attributes", "src/fns/objmgmt.rs: set_attribute_value", "src/rsa.rs, src/ec/ecdsa.rs, src/aes.rs: attribute tables", "src/storage/format.rs: update"]}
{"id": "C58", "title": "A new secret key has the value that was computed or given for it", "statement": "The secret key C_DeriveKey makes has exactly the value the mechanism computed from the base key, the parameter and the template. A key of C_GenerateKey is as many fresh random bytes as CKA_VALUE_LEN asks for, or, made from a password, what PBKDF2 gives. The two keys of C_GenerateKeyPair are made of the parts the generator gave. A secret key of C_CreateObject has the CKA_VALUE of the template, and a copy has the value of its origin. Nothing is cut, padded or changed on the way to the token, whether the key is stored sealed in the database or kept in the session.", "quantifier": "every configuration, every history of calls before, every mechanism and template, session and token objects", "why_tests_cant": "Tests compare a few derived values; the claim is about every template, mechanism, length and state of the token.", "anchors": ["src/fns/keymgmt.rs: derive_key, generate_key", "src/misc.rs: common_derive_key_object, common_derive_data_object", "src/object/key.rs: default_secret_key_generate, set_key", "src/aes.rs, src/storage/aci.rs: encrypt_value", "src/fns/objmgmt.rs: create_object"]}
{"id": "C59", "title": "An object that may be destroyed can be destroyed", "statement": "C_DestroyObject of a session object whose CKA_DESTROYABLE is true succeeds through any open session of the slot, and the handle names nothing afterwards. C_DestroyObject of a stored object whose CKA_DESTROYABLE is true, that the caller may see, succeeds through any session that may write; the handle names nothing and the record is gone from the database.", "quantifier": "every configuration, every history of calls before, every session, every object and handle", "why_tests_cant": "Tests destroy the objects they have just made; the claim is about every object in whatever state earlier calls, among them C_SetAttributeValue, have left it in.", "anchors": ["src/fns/objmgmt.rs: destroy_object", "src/token.rs: Token::get_object_by_handle, Token::destroy_object, Token::set_object_attrs", "src/storage/format.rs: fetch, remove", "src/object/factory.rs: get_object_factory, check_set_attributes"]}
{"id": "C60", "title": "A destroyed object is gone", "statement": "After a C_DestroyObject that returned CKR_OK the handle names nothing, and if the object was stored its record is no longer in the database, so that it is not found again by a search or after a restart.", "quantifier": "every configuration, every history of calls before, every session and handle, every pattern of failing database calls", "why_tests_cant": "Tests destroy objects on a database that works; the claim is about every state and about databases that fail at any point.", "anchors": ["src/fns/objmgmt.rs: destroy_object", "src/token.rs: Token::destroy_object", "src/storage/format.rs: remove", "src/storage/sqlite.rs: remove_by_uid"]}
