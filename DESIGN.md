# Formal model of kryoptic: design

Source: /repo (Rust), read as text, never built. Model and proofs: rocq/theories (Coq 8.16.1).

## Approach

* The PKCS#11 entry points are modelled as total functions in a state monad
  (`M S A := S -> S * result A`: the new state is kept also on error), collected in one `step` function over an
  inductive type of calls (`call`, Api.v). Histories are lists of calls, ends of the process, restarts and database
  failures; properties of histories are proved by induction over these lists (invariants), or by refinement to a
  small separate specification.
* `Result`/`Option` stay data. Panics and dereferences of NULL are explicit error values outside the range of
  CK_RV (`RV_PANIC`, `RV_NULL_DEREF`).
* Iteration over a Rust `HashMap` is modelled by the list of the finite map (std++ `gmap`); theorems about
  results of such an iteration are stated up to permutation.
* Cryptography is a record of functions; laws (opening after sealing, a wrong key fails) are hypotheses of the
  theorems that need them. Theorems are universally quantified over that record; a toy instance (Toy.v, ThmChunks.v)
  shows that the laws can be met and is used in the examples beside the theorems. None of this is an axiom.
* Randomness, generated unique ids and I/O failures come from oracles (counters of draws, the list `t_io` of the
  outcomes of the next database calls), so each theorem quantifies over all of them.
* A crash in the middle of a call is the failure of all database calls from some point on, followed by the end of
  the process; inside one database call, crashes are those of StoreSpec.v (a prefix of the statements, no commit).
* Where the property as stated in properties.jsonl is false of the code, a theorem `..._refuted` gives a concrete
  history, and the part that does hold is `..._partial`.

How the files fit together:

* Model: Pkcs11, Base, Attr, Obj, Factory, Tables, Create, Monad, Sqlite, Storage, Token, Backend, State, Api; beside
  it the separate models Config, Locks, Aes, Msg, Mac, Kdf, Hotp. Toy is the concrete instance for examples.
* Vocabulary of the statements: Spec, ObjSpec, and the files ending in `Spec`.
* Proofs: Hoare, Triple, Rows, ObjOk, ObjNew, Tok*, World*, Session*, Obj*, and the files ending in `Facts` or `Inv`.
* Theorems: the files starting with `Thm`, each followed by the concrete cases. Assumptions.v prints what every
  theorem of MANIFEST.json depends on.

## Plan per property

| id | what is modelled | how it is proved |
|----|-------|-------|
| C01 | State.new_session, session tables, next_handle | invariant: every handle returned is below the next one; induction over histories (Sessions.v, SessionInv.v) |
| C02 | every call that takes a session; both session tables | case analysis of `step`; invariant that the two tables agree |
| C03 | Session.change_session_state, Session::new, login, logout | invariant (SessionStates.v) over histories without the two defects; the defects as witnesses |
| C04 | has_ro_sessions, checks of C_OpenSession | invariant |
| C05 | token.login | case analysis |
| C06 | drop_session, drop_all_sessions_slot, logout | invariant |
| C07 | StorageAuthInfo, auth_user, set_pin, store_user with failing writes | invariant relating the stored counter to the history (AuthSpec.v defines the count from calls and answers only); witness for the failing write |
| C08 | as C07 | invariant: each user record holds the token key under the PIN the history set last (AuthPins.v) |
| C09 | token.get_object_by_handle and every call taking an object | per-call theorem over PrivateSpec.v, frame theorem for "untouched"; witnesses for C_GetObjectSize, operations and searches |
| C10 | every call of a session without CKF_RW_SESSION | frame relation on database rows through all calls (ReadOnly.v); witnesses for C_CopyObject and C_DeriveKey |
| C11 | ObjectFactories::get_object_attributes with explicit buffers | attribute tables of all factories, refinement to PlainSpec.v |
| C12 | check_set_attributes, default_copy | invariant over the family of a key and all its copies (Protect.v) |
| C13 | as C12 | invariant over histories; copies |
| C14 | C_GetAttributeValue (Api.v), the reading of records (Storage.v, Sqlite.v) and get_object_attributes (Factory.v). | Refinement to a specification of each entry by itself (`reply`, ThmQuery.v). Which calls are answered (ThmAnswered.v): the call is computed for every reachable state; the invariant of the database gives that the record can be read for every list of types, and the invariant of sealed values that its secrets open. |
| C15 | as C12, and destroy | case analysis of the calls |
| C16 | set_object_attributes of session and token objects | case analysis; witness for session objects |
| C17 | Handles, session objects | invariant of TokInv.v, elementary steps of TokStep.v |
| C18 | clear_session_objects | invariant: every session object belongs to an open session |
| C19 | search_objects, SessionSearch.results | SearchSpec.v: filter of the visible objects; independence of chunks by induction |
| C20 | the nine operation slots of a session | frame theorem with a renaming of the state of other sessions (OpsApart.v) |
| C21 | OpLoginStatus | induction over sequences of calls |
| C22 | check_allowed_mechs, filter_copy, mechanism lists | per-call theorem; membership specification (MechSpec.v) |
| C23 | C_GenerateKeyPair and multi-key C_DeriveKey and their rollback | exact runs of insert and destroy (Rollback.v), over all templates and one failing database call |
| C24 | internal_object_create, key_create, generate, copy, unwrap | invariant for existing objects; per-call theorems for new ones |
| C25 | wrap_key, export_for_wrapping | case analysis |
| C26 | row encoding of src/storage/sqlite.rs | round trip through the statements, then induction over later requests |
| C27 | transactions; a crash is a prefix of the statements without commit | old-or-new theorem over all crash points; witness for C_InitToken |
| C28 | StdStorageFormat, StorageACI over the database model | invariant over histories (SealFacts.v) |
| C29 | as C28, with set_pin and login | invariant on the key (KeyFacts.v) and the records |
| C30 | C_InitToken | exact run, all outcomes |
| C31 | src/config.rs: from_init_args, fix_slot_numbers, merging | arithmetic mod 2^32, induction over configurations and over histories |
| C32 | lock programs of every entry point; threads interleave step by step | acyclicity of the order in every reachable state; witnesses for the cycles |
| C33 | calls with output buffers; AES operations | law on mechanisms lifted to the calls (ThmBuffers.v); law proved for AES (ThmAesBuf.v) |
| C34 | AES modes, digests, HMAC, CMAC, AES-MAC over an abstract cipher | simulation of the streaming automaton by the one-shot function |
| C35 | KDF loops of src/native/*.rs over an abstract MAC and digest | equality with KdfSpec.v, written from the standards |
| C36 | src/fns/general.rs | invariant: nothing is left before C_Initialize |
| C37 | src/fns/stmgmt.rs | case analysis |
| C38 | state_save, state_restore | round trip; witnesses |
| C39 | src/hotp.rs with the signing calls on one key | invariant over histories of generations and verifications; RFC 4226 written out |
| C40 | pointers are options; a dereference of NULL is an error value | case analysis of all calls (Errors.v) |
| C41 | all calls | elementary steps (TokStep.v) of each call name the object they are about |
| C42 | all calls | frame theorem: slots other than that of the session keep their token |
| C43 | C_CreateObject, C_GenerateKey, C_GenerateKeyPair | exact runs; factory tables checked by computation, templates by induction |
| C44 | generate_iv and the calls starting a message, src/ossl/aes.rs | value of the IV as a number; injectivity below the limit, induction over the calls |
| C45 | message operations of src/ossl/aes.rs for GCM and CCM | simulation by the one-shot cipher; invariant over histories of messages |
| C46 | The NSS backend (Nss.v): password entry, master key, cache of derived keys, and the calls of the token layer on it as a transition system with restarts; SHA-1, PBKDF2, AES-CBC and ASN.1 abstract with the laws `nss_laws`. | Invariant over the calls: nobody is logged in and the cache holds only keys of wrong PINs; the refutations are proved for every cryptography with the laws, by running the calls symbolically. |
| C47 | The NSS backend (Nss.v): columns and their conversions, encryption of sensitive and signatures of authenticated attributes, reading back, restarts; the table of attributes is generated from attrs.rs (NssTable.v). | The loops over the attribute table are reduced to statements about each attribute, the state after a store is an invariant of all calls that give no wrong PIN, and from the invariant the object is read back; counterexamples by evaluation. |
| C48 | The same model; `sealed_with` and `authentic` (NssSpec.v) say in terms of the cryptography what encrypted and signed mean. | Induction over the loop that seals the attributes, and over the loops of a read with the invariant that all cached keys come from the master key; counterexamples by evaluation on changed databases. |
| C49 | The conversions of ecdsa.rs and DerEncBigUint of kasn1, with reading and writing of DER tags and lengths (Der.v); the encodings are specified as the shortest ones with the given value (DerSpec.v). | The encoder gives a shortest encoding, shortest encodings are unique, the reader reads every one of them; arithmetic on the value of byte strings. |
| C50 | The export and import of RSA keys of rsa.rs, PrivateKeyInfo of kasn1 (Der.v); numbers specified in DerSpec.v. | Induction over the list of INTEGERs for writer and reader; counterexamples by evaluation. |
| C51 | The signing operations of rsa.rs, ecdsa.rs, eddsa.rs, mldsa.rs, slhdsa.rs and the signature context of the ossl crate below them (Sig.v), as state machines over the calls of the traits; the key is a record of functions (sign, verify, size) with the laws `suits` (SigSpec.v). | An operation between its calls is determined by the data given so far: each piece extends it, the last call depends on nothing else; the single call is one piece and the last call. By case analysis over the families. |
| C52 | The same model. | After the flag is set no step clears it (a closure argument over the monad), and each ending call sets it first; counterexamples by evaluation. |
| C53 | RSA encryption, decryption, wrapping and unwrapping of rsa.rs with the asymmetric cipher of the ossl crate, and C_Encrypt and C_Decrypt on such an operation (Asym.v); OpenSSL is a record of functions with the laws `enc_laws` (AsymSpec.v). | Each call is computed symbolically for all keys, messages and buffer sizes; the counterexamples hold for all keys as well. |
| C54 | The derive functions of ecdh.rs and ffdh.rs with the buffer handling of the ossl crate (Agree.v); a group is a record of functions with the laws `group_laws` and `paired` (ThmAgree.v); what a key should be is in AgreeSpec.v. | The derivation is computed symbolically for all templates and secrets; the wrong values of finite field DH are proved wrong for every secret that begins with a zero byte. |
| C55 | C_WrapKey, C_UnwrapKey, C_EncapsulateKey and C_DecapsulateKey (Api.v) with the export and import of the factories (Create.v) and the sealing of stored values (Storage.v). What a key's value is, is in PlainSpec.v; the law of the mechanism in WrapSpec.v. | Each call is opened for every reachable state: the exported bytes are the plain value of the key read, the imported ones are stored so that the plain value of the new handle is them, sealed under the key the token keeps. |
| C56 | The whole module (Api.v), with the records of the database of a slot found by their unique identifier, whether the module runs or not (`stored`, KeptSpec.v). | Every call is a sequence of elementary steps of one token (TokStep.v); each step keeps the record unless it stores or removes under the same identifier, and a step does that only for an object the call names, that may be modified or destroyed, or for a new object when no handle names the record. Starting and stopping keep all records. Induction over the calls. |
| C57 | The whole module (Api.v) with the attribute tables of all factories (Tables.v). The components of a key are the list `components` (ThmMaterial.v). | The tables are checked once for all factories: every component is in each table unchangeable. Every call is a sequence of elementary steps of one token, and each step keeps such an attribute of every object it keeps. For CKA_VALUE, whose flags depend on the class, the class is carried along. Induction over the calls; counterexamples by evaluation. |
| C58 | C_DeriveKey, C_GenerateKey and C_CreateObject (Api.v), the factories (Create.v), the insertion of objects and the sealing of stored values (Storage.v). What a mechanism computed is `computed` (ThmComputed.v); the plain value of a handle is `key_value` (WrapSpec.v). | Each call is opened for every reachable state; the value is followed through the template, the factory and the insertion, and stored values are opened again by the law of sealing. |
| C59 | C_DestroyObject and C_SetAttributeValue (Api.v, Token.v), the fetching and removal of records (Storage.v, Sqlite.v). | The call is computed for every reachable state that meets the hypotheses; the invariant gives the session, the slot and the absence of CKA_TOKEN from session objects. The removed record is gone by the law of the statements that remove it. The counterexample, by evaluation: C_SetAttributeValue accepts an unknown class, and from then on no call can read the record; C59_stuck proves that of every such record. |
| C60 | C_DestroyObject (Api.v, Token.v) over the database with failing calls (Storage.v). | The call is opened for every reachable state. What a destruction that succeeds does to a token is computed for every answer of the database; with a database that answers, the statements that remove a record leave none with its identifier. The counterexample by evaluation: the failure of the removal is ignored. |

## Result per property

Theorem names are in MANIFEST.json. Theorems ending in `_refuted` are concrete histories in which the code, as
modelled, does not do what the property says; theorems ending in `_partial` are the part that holds.

**C01 Session handles are fresh** (proved; ThmSessions.v). Every history between C_Initialize and C_Finalize/crash. Handles are unbounded numbers in the model (the 64-bit counter of the code does not wrap).

**C02 Calls on a session that is not open are refused and change nothing** (proved; ThmSessions.v). C_SetOperationState with an encryption key handle answers CKR_KEY_NOT_NEEDED before it looks at the session.

**C03 Session states agree with the login state** (partial; ThmSessions.v). False: a session opened while the SO is logged in reports CKS_RW_USER_FUNCTIONS, and sessions keep their state after a C_Logout whose storage access fails. Proved for every history without these two.

**C04 No read-only session coexists with a logged-in security officer** (proved; ThmSessions.v). 

**C05 Login is exclusive and idempotence is refused** (proved; ThmSessions.v). An SO login while a read-only session is open is answered CKR_SESSION_READ_ONLY_EXISTS first.

**C06 Closing the last session logs out** (proved; ThmSessions.v). That nobody logged in means private token objects are unreachable is C09.

**C07 PIN retry lockout** (partial; ThmAuth.v). For every history of calls, restarts, crashes and database failures from an empty machine: after ten failed attempts in a row by any mix of C_Login, context login, C_SetPIN and C_InitToken, no PIN is accepted and the record does not change. Missing: attempts during which the database write fails are not counted; the full statement is refuted (the code ignores the failing write of the counter, so a read-only medium allows unlimited guesses). Databases are named after their slot (hypothesis steady).

**C08 Only the current PIN authenticates** (proved; ThmAuth.v). Every history from an empty machine. The laws of the PIN-based key sealing (pin_laws) are hypotheses on the modelled crypto. After a C_InitToken that failed half-way, which PIN the SO record holds is not determined (pin_of is None).

**C09 Private token objects are unreachable without login** (partial; ThmPrivate.v). Every call taking an object handle is refused for private token objects while nobody is logged in, no call changes them, a search started then does not deliver them. Missing because false in the code: C_GetObjectSize answers for them, and operations and searches started before C_Logout go on.

**C10 Read-only sessions cannot change token objects** (partial; ThmReadOnly.v). For every reachable state and every call on a session opened without CKF_RW_SESSION, the stored objects of all slots are unchanged. Not covered: C_CopyObject of a token object without CKA_TOKEN in the template and C_DeriveKey with additional-key templates mentioning CKA_TOKEN (both shown to store objects: findings), and operations that store a counter in their key (HOTP).

**C11 Secret attribute values are never returned for sensitive or unextractable keys** (partial; ThmQuery.v). False for Diffie-Hellman private keys, whose CKA_VALUE is not flagged sensitive; and while nobody is logged in a query naming a secret attribute of a public token key fails as a whole (CKR_GENERAL_ERROR, nothing written). Proved for all other kinds of keys and all queries that are answered.

**C12 A key once protected stays protected** (partial; ThmProtect.v). Proved: over every history in which no C_SetAttributeValue or C_CopyObject template carries CKA_CLASS or CKA_KEY_TYPE, a protected key and all direct and indirect copies keep their kind, stay protected and do not show their secret. Missing: the statement is false when the class or key type is changed (two refutations: a copy with another CKA_CLASS, a changed CKA_CLASS or CKA_KEY_TYPE), and Diffie-Hellman keys show their value (see C11).

**C13 One-way attributes only move one way** (proved; ThmAttrs.v). On slots configured to deduplicate objects, creating an equal object may replace the attributes of a stored one: excluded by no_replace (Spec.v).

**C14 Attribute queries respect the caller's buffers** (partial; ThmQuery.v, ThmAnswered.v). Proved for every call that is answered; a call that is not writes nothing. Always answered: queries of session objects; of a stored object of a known kind whose database answers, queries that ask for no secret, and, while the key of the token is in memory, all queries of attribute types below 2^32. Entries of one call on a token object are not independent when the fetch of the object fails (refuted with a type of 2^32 or more; the example C14_secret_unanswered shows it for a secret asked for while nobody is logged in).

**C15 Modifiable, copyable and destroyable flags are honoured** (proved; ThmAttrs.v). Objects without the attribute count as modifiable, copyable and not destroyable, as in the code.

**C16 C_SetAttributeValue is all or nothing** (partial; ThmAttrs.v). Proved for token objects; for session objects only if every entry of the template has a value of the right form, since entries before a malformed one are applied (refuted).

**C17 Object handles are unique and not recycled** (partial; ThmObjects.v). Proved: an object has one handle, a handle never names another object, and names nothing for good once its object is gone. False: C_DestroyObject forgets the handle and returns CKR_OK even if the database fails to remove the object, which then gets another handle; a key generated with the CKA_UNIQUE_ID of a stored object shares its handle.

**C18 Session objects live exactly as long as their session** (proved; ThmObjects.v). Private session objects of other sessions also survive: the logout that follows the closing of the last session has none left to destroy.

**C19 Object search returns exactly the matching visible objects** (partial; ThmSearch.v). For every reachable state the search delivers, without repetition and however the calls are divided, exactly the visible objects matching the template. Hypotheses: template booleans are 0/1 and dates non-empty, no session object shares a stored object's identifier, no session object had its class changed. The refuted theorems show the code violating the property outside these (non-canonical booleans, search by a readable stored CKA_VALUE, CKA_UNIQUE_ID below ten, changed class).

**C20 One active operation per kind** (partial; ThmOps.v). Proved for every reachable state: a second init changes nothing and answers CKR_OPERATION_ACTIVE; a continuation without its operation changes nothing and answers CKR_OPERATION_NOT_INITIALIZED; calls in other sessions neither change a session's operations nor are influenced by them (influence on C_Login excluded); C_SessionCancel ends exactly the operations its flags name. Not true of the code: C_SessionCancel never ends a verification of a signature given in advance, whatever its flags (proved for every reachable state); refuted by witnesses: C_FindObjectsFinal without a search returns CKR_OK; while an always-authenticate operation waits for its login, continuing an operation of another, inactive kind answers CKR_USER_NOT_LOGGED_IN.

**C21 Keys requiring per-use authentication are not usable without it** (partial; ThmAlways.v). For every reachable state and every sequence of calls in any sessions: after the init of a signature or decryption with such a key no call that goes on with an operation of the session has any effect or output, until a context-specific C_Login succeeds there or another operation is started there. The last exception is a defect of the code, refuted by a witness: starting a search (or digest, verification, encryption) clears the pending login requirement.

**C22 Key and slot mechanism restrictions are enforced** (partial; ThmMech.v). Every call that names a mechanism the slot does not list, or a key whose CKA_ALLOWED_MECHANISMS lacks it, gives nothing back and changes no object and no operation; from C_Initialize to C_Finalize a slot lists exactly what its allow or deny list leaves. Missing: three exceptions found in the code. C_SetOperationState restores a signature with a key whose list lacks the mechanism. C_DigestKey ignores the list of the key it feeds. A removed mechanism can still be found as an object of class CKO_MECHANISM.

**C23 Multi-object creation is atomic** (partial; ThmAtomic.v, ThmAtomic2.v). C_GenerateKeyPair: if it fails, every session object and every record afterwards was there before, for all histories, templates and keys, provided the public template does not make the key indestructible and the database works; and likewise if one database call fails in a call that would otherwise have succeeded. False in general: with CKA_DESTROYABLE=false the public key stays behind, and so it does if the database also fails on its removal. C_DeriveKey making any number of secret keys (SP800-108, TLS): the same, if each key can be destroyed and the mechanism makes as many keys as were asked for; false when the first key has CKA_DESTROYABLE=false. Missing: one failing database call in C_DeriveKey.

**C24 Key provenance attributes cannot be forged** (partial; ThmOrigin.v, ThmDerived.v). For every history the five attributes of an existing object keep their value; C_CreateObject, C_GenerateKey and C_GenerateKeyPair set LOCAL, KEY_GEN_MECHANISM, ALWAYS_SENSITIVE and NEVER_EXTRACTABLE from how the key was made. The full statement is false in the code: templates of C_GenerateKey choose CKA_TRUSTED, of C_CopyObject LOCAL, KEY_GEN_MECHANISM, TRUSTED and NEVER_EXTRACTABLE, of C_UnwrapKey all of them. A key of C_DeriveKey is not local, and always sensitive or never extractable only if its base key is, except one made by key agreement (ECDH, DH), which gets the attributes of a generated key whatever its base key was. Concatenation of keys is not covered.

**C25 Wrapping only exports exportable keys** (proved; ThmWrap.v). C_WrapKey gives something back only if the key is extractable, the wrapping key has CKA_WRAP, and it has CKA_TRUSTED when the key asks for it.

**C26 Stored objects are read back unchanged** (proved; ThmStore.v). Every history of the database and every later history not about the object; 64-bit numbers that do not fit are refused (the statements are only produced when every value can be represented). CKA_CHECK_VALUE is ignored by the module and not stored.

**C27 A crash leaves each stored object old or new, never mixed** (partial; ThmStore.v). Every database request is one transaction and every crash point leaves the file before or after it; SQLite's own atomic commit is trusted. C_InitToken makes several writes and a crash between them loses the SO record or leaves an empty SO PIN (refuted).

**C28 Secrets are encrypted at rest** (partial; ThmSeal.v). For every history with restarts and crashes, from any successful C_InitToken to the next: all secret attributes of all records are values of the sealing function under one key, for the record's own identifier, and that key is the one in memory whenever a key is. Conditions: no C_SetAttributeValue template names an attribute twice, no call changes the class or key type of an object or copy, the duplicate-replacing option is off, and Diffie-Hellman private keys are left out; without the first, second and last the statement is refuted (values in the clear).

**C29 Changing PINs never loses stored secrets** (proved; ThmKeys.v). Over any history of calls, restarts, crashes and database failures in which the token is not initialised anew, the key loaded by any later login is the one that sealed the stored values, so every untouched record shows the same plain values, to either user logging in with the PIN set last; a value sealed for one object is not opened in the record of another. Sealing laws (value_laws, pin_laws) are hypotheses met by the toy instance.

**C30 Initialising a token erases it** (proved; ThmInit.v). Every history from an empty machine, all outcomes. The laws of the PIN-based key sealing are hypotheses. A C_InitToken interrupted by a database failure is outside the property (it returns an error).

**C31 Slot configuration merging keeps slots distinct** (partial; ThmConfig.v). Proved for every pair of configurations when enough slot numbers are left (room): the merged configuration has distinct numbers and storages, the slots that were there are unchanged, every new slot is present, and added slots get unused numbers; and for every history of C_Initialize/C_Finalize in builds with overflow checks. Missing, because false in the code: near 2^32 numbers collide (or the call panics), the default file is not checked for duplicates, and a refused configuration stays merged in part without numbers.

**C32 The module never deadlocks** (partial; ThmLocks.v). Proved for every number of threads, every list of calls and every interleaving, as long as on no slot C_Login/C_Logout run beside calls that keep their session locked while they lock the token (and, in fips builds, without C_DeriveKey, C_EncapsulateKey, C_DecapsulateKey). The excluded mixes do deadlock: C_Login against C_SignInit, and in fips builds C_DeriveKey against any such call on its session.

**C33 Length queries and too-small buffers do not consume the operation** (partial; ThmBuffers.v, ThmAesBuf.v, ThmAead2.v). For every call with an output buffer: if the mechanism keeps its state on a length query and on CKR_BUFFER_TOO_SMALL (retry_law), then after such an answer the operation is active and the repeated call has exactly the result and effect it would have had at first. The law is proved for the AES operations except CTS, CTR with a counter limit, one-shot CBC_PAD and CCM encryption. Refuted in general: one-shot CBC_PAD encryption with room for the data only takes the data in twice and returns a wrong ciphertext; CTS and limited CTR fail on the repeated call; C_Sign and C_SignFinal do not report the length needed. C_EncryptMessage with too small a buffer leaves the message begun, so that the repeated call is refused (C33_message_refuted). Missing: the law for RSA and EC.

**C34 Multi-part processing equals single-part** (partial; ThmChunks.v, ThmMac.v, ThmChunks2.v). Digests, HMAC, CMAC and AES-MAC are proved for every chunking. AES ECB, CBC, padded CBC, CTR with 128 counter bits, CFB/OFB and GCM are proved for every chunking when encrypting; when decrypting, padded CBC needs pieces that are whole blocks and GCM needs pieces after the first to be no longer than the tag: both conditions are necessary, as the refutations show. CTR with a shorter counter and key wrapping are refuted. CCM is proved for every chunking of a message of the announced length up to 1 MiB, in both directions; further bytes are dropped in silence (C34_ccm_refuted). CTS takes one piece and refuses a second; with the room it asks for it may fail or panic (C34_cts_refuted). The other mechanisms are not modelled in pieces. OpenSSL is a record of functions, with its buffering in EVP as documented.

**C35 Key derivation output is independent of buffer splitting and matches its specification** (partial; ThmKdf.v, ThmKdf2.v, ThmHkdf.v, ThmAgreeMore.v). Proved for every input: PBKDF2 (HMAC), TLS PRF and key block, SSH, concatenation and xor, SP 800-108 counter and feedback (any MAC) with the length field counted in bytes. Refuted: PBKDF2 with 0 iterations gives an all-zero key; SP 800-108 L is in bytes not bits, its greatest value is written 0, 40/48/56-bit fields panic; CKM_EXTRACT_KEY_FROM_KEY at a multiple of 8 bits mixes neighbouring bytes. HKDF: proved to be RFC 5869 with the law that OpenSSL computes extract and expand (kdf_law of HkdfSpec.v); refuted for flags other than 0 and 1, and a null info pointer is read when only extracting. Missing: the FIPS variants, double pipeline mode (refused by the code).

**C36 Module lifecycle** (proved; ThmSessions.v). 

**C37 List calls obey the two-call convention** (proved; ThmSessions.v). The list itself is given by list_result of Spec.v.

**C38 Saved operation state restores faithfully or not at all** (partial; ThmState.v). All session states, all byte strings. Missing because false: a genuine blob with several operations may be refused half way (refuted), operations that cannot be saved are left out silently (refuted), a restored operation is unusable in a session that has begun none (refuted). That nobody else can make a sealed blob is a law of the abstract sealing (AES-GCM).

**C39 One-time-password counters never go backwards** (partial; ThmHotp.v). Proved for every history, of any length, of generations and verifications done one at a time whose new counters the database takes: every password given out or accepted is the RFC 4226 value of a counter above all earlier ones. Refuted otherwise: two operations begun before either ends give the same password; a failed store gives the password out and repeats it; C_SetAttributeValue can set the counter back; it wraps at 2^64. The sessions, logins and locks around the calls are those of Api.v and are not repeated in this model.

**C40 Null and malformed arguments are rejected without touching memory** (partial; ThmNull.v, ThmAead2.v). False for the pointers listed in unchecked_ok (Spec.v); proved for all others. A null tag pointer in the parameter of a message is dereferenced (C40_tag_refuted); the other pointers inside mechanism parameters belong to the abstract backend.

**C41 A call changes only the objects it is about** (proved; ThmObjects.v). `about` of Spec.v lists the exceptions; creating an object is one only on a slot configured to deduplicate objects.

**C42 Slots do not influence one another** (proved; ThmObjects.v). For the calls other than C_Initialize, C_Finalize and the end of the process. Slots on the same database file are refused by the configuration (C31).

**C43 A creating call returns the handle of what it created** (partial; ThmNew.v). Full for C_GenerateKey and C_GenerateKeyPair. C_CreateObject: proved where the token does not deduplicate and the object is not a trust object; otherwise the call may return the handle of an equal object that exists, by design. Stated for the attribute types an application chooses; the values of key material come from the backend and are not part of it.

**C44 IVs made by the token do not repeat** (partial; ThmMsg.v, ThmAead2.v). Proved for the counter generators for any sequence of calls, if every generating message leaves the token the same number of bits; for the XOR generator if the caller restores its buffer before each message. Refuted in general: with CKG_GENERATE_COUNTER_XOR a buffer that is handed on gets the first IV again in the fourth message, and changing the number of fixed bits between messages repeats counter IVs. CKG_GENERATE_RANDOM is the random source and not claimed.

**C45 Messages are encrypted and authenticated on their own** (partial; ThmAead.v, ThmAead2.v). Proved for GCM with any history and for CCM as long as no earlier message of the operation was given in pieces; a message refused at its beginning leaves the operation as it was, unless its IV could not be generated. Refuted: CCM keeps the data of a message given in pieces and prepends it to the next one; a GCM message with a wrong tag leaves its plaintext in the output buffer; a CCM nonce of 7 bytes allows one byte of data only; after a message whose IV could not be generated no other message is taken. The cipher itself is abstract.

**C46 Only the PIN set last opens a token kept in an NSS database** (partial; ThmNssPin.v). Proved: in a new process no sequence of calls that does not give the right PIN logs anyone in or changes anything; the right PIN is accepted there if no other was tried before; C_InitPIN and C_SetPIN make the new PIN the one a new process accepts. False beyond that, for any cryptography that meets the laws: after one login and logout every PIN is accepted, because the derived key of the password entry stays in the cache under its salt (C46_any_pin_refuted); so it is right after C_InitPIN (C46_init_pin_refuted); C_SetPIN of a logged-in user accepts any old PIN (C46_old_pin_refuted); and a wrong PIN whose key decrypts without a padding error shuts out the right one until the process ends (C46_locked_out_refuted). Missing: the theorem holds only until the right PIN is given.

**C47 Objects stored in an NSS database are read back as stored** (partial; ThmNssObj.v). Proved: every object whose attributes can be held (no value that looks like the marker for an empty value, numbers below 2^32, attributes with a column) is read back with the same attributes after any calls that give no wrong PIN and do not change or delete it. False beyond that: the value a5 00 5a is read back empty (C47_value_refuted); CKA_ALLOWED_MECHANISMS is not stored, so a restricted key is read back without restriction (C47_mechanisms_refuted); after a change of the PIN no secret can be read again (C47_pin_change_refuted); a public secret key is read without login with ciphertext for its value (C47_ciphertext_refuted); and after columns were added to an old database no object can be read in that process (C47_old_database_refuted).

**C48 Secrets in an NSS database are stored encrypted, and authenticated attributes are checked** (partial; ThmNssSeal.v). Proved: in the row of a new private or secret key, and after a C_SetAttributeValue that gives each attribute once, every column of a sensitive attribute holds the encryption of its value under a key from the master key and a salt drawn in the call, and these are all attributes that the object types declare secret; an authenticated attribute is returned to a logged-in user only with a signature that is a nonempty beginning of its MAC. False beyond that: a signature of one byte is enough (C48_forged_refuted); without login nothing is checked (C48_logged_out_refuted); a secret given twice in one C_SetAttributeValue is stored as it is (C48_twice_refuted).

**C49 ECDSA signatures keep their numbers between the PKCS#11 form and the DER form** (proved; ThmDer.v). For every field size below 2^28 bytes and every pair of numbers: both conversions give what the specification (shortest encoding of the number) says, they are inverse to each other, and for fields up to 120 bytes the DER form fits the room the code leaves. The tag and length handling of the asn1 crate is modelled from its documentation.

**C50 An RSA private key survives wrapping and unwrapping** (partial; ThmDer.v). The round trip is proved for all keys whose parts are not empty and whose modulus and public exponent are not zero. The second half is false: a wrapped key with public exponent zero, or with an INTEGER of no content, panics (C50_zero_refuted, C50_no_content_refuted), so does wrapping a key created with an empty prime (C50_empty_prime_refuted); a third prime is silently dropped. Missing: a wrapped key with PKCS#8 attributes, and the template checks around it (Create.v has those).

**C51 A signature does not depend on how the data is cut into pieces** (proved; ThmSig.v, ThmSigMore.v). For every key with the laws of suits (SigSpec.v) and all families of mechanisms; the mechanisms whose data the module keeps itself (EdDSA, ML-DSA and SLH-DSA without OpenSSL updates) up to their limit of one MiB. ECDSA fields up to 120 bytes. The calls are those of the operation traits with a buffer of the exact size; the API level around them is Api.v (C20, C33). Toy cases for each family: toy_rounds.

**C52 A signing or verifying operation is over when it should be** (partial; ThmSig.v). Proved: a finished operation refuses every call and stays as it was; the final call always finishes; the single call too, except on more than one MiB with the mechanisms that keep the data; ML-DSA ends when a piece is refused. False: with EdDSA a refused piece (over one MiB in all) leaves the operation active, and C_SignFinal then signs the earlier pieces only (C52_lost_piece, _refuted); a wrong signature is answered by CKR_DEVICE_ERROR with all families but EdDSA (C52_wrong_code, _refuted).

**C53 RSA encryption and key transport give back what was put in** (partial; ThmAsym.v). Proved for all keys with the laws of enc_laws: round trips of encryption and wrapping, the announced length suffices, small buffers are refused without effect, refused data ends the operation. False: a buffer of length zero that is not null is answered by CKR_OK with the full length though nothing was written; the length of a CKM_RSA_X_509 output cannot be asked for and that mechanism, although announced for it, does not wrap; OAEP with SHA-512 and a key of 1024 bits underflows (a panic with overflow checks); the code for buffers shorter than the modulus is never reached; a key whose modulus was given with a leading zero encrypts but never signs.

**C54 Key agreement gives both sides the key PKCS #11 defines** (partial; ThmAgree.v, ThmAgreeMore.v). For ECDH with uncompressed points both sides get the same key, and its value is the end of the secret or the output of the function named, for every template, key type, KDF and spelling of the point. For finite field Diffie-Hellman both sides get the same key, but the value is the end of the secret only if the secret does not begin with a zero byte: otherwise (one secret in 256) a shorter key is taken from the wrong place, and a key of full size is too short. An encoded public value of X25519 or X448 is not decoded. The laws of the group (size of the secret, both sides agree) are hypotheses about OpenSSL; compressed points are not covered.

**C55 A secret key survives wrapping, and both ends of a key encapsulation have the same key** (partial; ThmWrapBack.v). For any two reachable states of one or two tokens: if C_WrapKey gives a wrapped secret key and C_UnwrapKey makes a secret key of it, the new key has the value of the first (cut to CKA_VALUE_LEN for AES keys); if C_EncapsulateKey and C_DecapsulateKey both make a key, both have the same value. Session and token objects, sensitive or not. That the mechanism undoes what it did (undoes, agrees of WrapSpec.v) is a hypothesis about the backend and the two keys; for RSA it is C53. Missing: private keys, which are wrapped as PKCS#8.

**C56 A stored object stays until a call asks for it to be changed or removed** (partial; ThmKept.v). Proved for every history, restarts and crashes included, in which objects are made only while some handle names the stored object. What is missing is false: a template of C_GenerateKey, C_UnwrapKey or C_DeriveKey may give CKA_UNIQUE_ID, and after a restart, while no handle names the stored object, the new key replaces it although it is neither modifiable nor destroyable (C56_refuted). The slot must not be set up to replace equal objects on C_CreateObject.

**C57 The material of a key does not change** (partial; ThmMaterial.v). The components (RSA numbers, EC parameters and point, DH parameters, parameter set, seed) are proved never to change for any history. CKA_VALUE of public and private keys is proved for histories in which no C_SetAttributeValue changes the class or the key type, and false otherwise: three calls replace the private value of a stored EC key under the same handle. CKA_VALUE of secret keys can be set by C_SetAttributeValue, to a length no AES key has.

**C58 A new secret key has the value that was computed or given for it** (partial; ThmComputed.v). Derived and generated keys are complete. C_CreateObject is proved for tokens that do not deduplicate; on the others the call may update an object that is there. Copies are proved for templates that do not change the class, of objects with one class. Key pairs are proved for the parts that are byte strings. Derivations that give several keys (CKM_SP800_108 with additional keys, TLS key and MAC) are not covered.

**C59 An object that may be destroyed can be destroyed** (partial; ThmDestroy.v, ThmDestroyAll.v). Session objects: proved. Stored objects: proved if the storage answers and the record can be read. A record can be read if the module knows its class and type and it has no secret attributes (C59_public_partial), or, for every kind and every history from C_InitToken on in which no call retypes an object, if the key of the token is in memory (C59_secret_partial). False without that: C_SetAttributeValue accepts a CKA_CLASS the module does not know (CKA_CLASS is not unchangeable), after which the object can neither be destroyed nor changed back (C59_refuted; C59_stuck for every such record).

**C60 A destroyed object is gone** (partial; ThmGone.v). The handle: proved for every state and every failure. The record: proved if no database call fails. False otherwise: Token::destroy_object ignores the result of the removal and returns CKR_OK, and the object is found again after a restart (C60_refuted).

## Trusted base

* Coq's kernel (8.16.1), including its virtual machine (`vm_compute` is used for concrete cases and for facts about
  the generated tables). No kernel check is switched off.
* `Print Assumptions` (Assumptions.v, run in every build) answers "Closed under the global context" for every theorem
  of MANIFEST.json. The libraries loaded (std++ loads ssreflect) declare seven axioms in Coq.ssr.ssrunder, part of
  Coq's own distribution; no theorem depends on them.
* The correspondence of the Gallina text with the Rust text: each definition cites file and lines and says what it
  leaves out. Tables.v and Pkcs11.v were generated by scripts from the attribute tables and the header; each entry
  cites its line.
* Hypotheses of theorems that stand for code outside the model:
  * `p_fs P = all_factories`: the factories registered are those of Tables.v (default build).
  * `utf8_valid (p_uuid P n)`: generated unique ids are text.
  * `sane Q P B E`: the code outside the model (ciphers, OpenSSL, sealing) fails with proper return codes, never with
    CKR_OK as an error.
  * `pin_laws`: a token key sealed under a PIN is opened by that PIN and no other. `value_laws`: the same for values
    sealed under the token key for one object. These stand for PBKDF2 and AES-GCM.
  * `steady`: each slot keeps its database file, and no other slot uses it.
  * `prim_ok`, `inverse`, `hash_ok`, `hash_bytes`, `retry_law`: the cipher gives blocks of 16 bytes, decryption
    inverts encryption, a digest has its length and gives bytes, a mechanism keeps its state on a length query. The
    buffering of OpenSSL's EVP interface is written out in Aes.v (`evp_update`, `evp_final`), from its documentation.
* SQLite: the statements of one transaction take effect together or not at all, and what is committed stays.

## What is modelled

| source | model | left out |
|--------|-------|----------|
| src/attribute.rs, src/pkcs11/mod.rs | Attr.v | template iterators, zeroizing; the re-encoding of CKA_EC_POINT |
| src/object/mod.rs, factory.rs, key.rs, certs.rs; the factories of aes, rsa, ec, ffdh, mldsa, mlkem, slhdsa, hmac, hotp | Obj.v, Factory.v, Tables.v, Create.v | checks of key material by OpenSSL (part of the backend), profile objects (not in the default build) |
| src/storage/sqlite.rs | Sqlite.v | schema migration, opening of the file, SQL text (statements are data) |
| src/storage/format.rs, aci.rs | Storage.v | cryptography (abstract), the KDF iteration counts |
| src/token.rs | Token.v | statistics of CK_TOKEN_INFO beside flags, label and serial |
| src/session.rs, src/slot.rs, src/lib.rs (state) | State.v | lock poisoning; overflow of 64-bit counters of handles |
| src/fns/*.rs | Api.v | C_WaitForSlotEvent and functions that only answer CKR_FUNCTION_NOT_SUPPORTED; asynchronous calls |
| src/mechanism.rs (traits) | Backend.v | the mechanisms behind it are abstract in the API model |
| src/config.rs | Config.v | TOML parser, search for the configuration file, environment |
| locks of src/lib.rs, session, token, fips provider | Locks.v | what is computed under the locks |
| src/ossl/aes.rs, ossl/src/cipher.rs | Aes.v, Msg.v | OpenSSL; AES-KWP padding checks; FIPS indicators |
| src/ossl/hash.rs, src/native/hmac.rs, CMAC and MAC of aes.rs | Mac.v | OpenSSL digests |
| src/ossl/hkdf.rs | Hkdf.v | OpenSSL's computation (a law), object creation |
| src/native/pbkdf2.rs, sp800_108.rs, sshkdf.rs, tlskdf.rs, simplekdf.rs | Kdf.v | object creation around them (Create.v, Api.v) |
| src/hotp.rs | Hotp.v | time-based variants |
| src/ossl/rsa.rs, ecdsa.rs, eddsa.rs, mldsa.rs, slhdsa.rs (signing and verifying), ossl/src/signature.rs | Sig.v | the OpenSSL calls (a record of functions with laws), parsing of mechanism parameters and keys, FIPS indicators |
| src/ossl/rsa.rs (encryption, wrapping), ossl/src/asymcipher.rs (encrypt, decrypt) | Asym.v | the OpenSSL calls (a record of functions with laws), parsing of OAEP parameters, loading of keys |
| src/ossl/ecdh.rs, ffdh.rs, ossl/src/derive.rs (EcdhDerive, FfdhDerive) | Agree.v | the OpenSSL calls (a record of functions with laws), loading of keys, parsing of mechanism parameters into pointers and lengths |
| src/kasn1/mod.rs (DerEncBigUint, PrivateKeyInfo), src/rsa.rs (wrapping), src/ossl/ecdsa.rs (signature forms) | Der.v | the asn1 crate (written out from its documentation), PKCS#8 attributes, other key types |
| src/storage/nssdb/mod.rs, ci.rs, attrs.rs | Nss.v, NssTable.v | cryptography and ASN.1 (abstract), SQL text, failing input/output, read-only configurations, the table of handles, config.rs |

## What is not modelled

* key generation in src/ossl, mlkem.rs, montgomery.rs, kbkdf.rs,
  drbg.rs and the ossl crate but for the cipher wrapper: their operations are the abstract backend of Backend.v.
* the rest of src/kasn1 (DER encodings of other keys): in the API model the fields `be_export` and `be_parse` of the backend.
* src/storage/nssdb/config.rs (configuration strings), src/fips (provider and indicators; the build modelled is not a FIPS one,
  but Locks.v covers the extra lock), tools, rustls, cdylib.
* Memory hygiene (zeroizing), logging, poisoning of locks after a panic, integer overflow of the handle counters
  (2^64 calls), the size of an address space.

## How to read seeded/LOG.jsonl

- `first_failing_proofs` names the proofs that were seen to fail.
- `theorems_failed` lists every theorem of MANIFEST.json that was not built. It includes theorems that were only blocked
  because a file they depend on failed; it does not say that each of them would fail by itself.
- An edit that broke an early file therefore lists most theorems, and the theorems about its claim may not have been reached.
- `x02` has no result: its build was stopped before it finished.
