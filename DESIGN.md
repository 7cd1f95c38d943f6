# A Rocq model of PyNDN2

Source: `/repo/python/pyndn` (read as text). Model: `/verif/rocq/theories`, logical name `Verif`,
Coq 8.16.1, standard library only.

## Layout

* `Base.v` - Python exceptions as values (`res`), bytes, slices, lexicographic helpers.
* `<Area>Model.v` - definitions only; each cites the file and lines it models.
* `<Area>Spec.v` - small independent specification of the property (no reference to model helpers).
* `<Area>Proofs.v` - lemmas.
* `<Area>Props.v` - the theorems of MANIFEST.json (named after the property, `C01_...`), followed by
  `Print Assumptions`, and `Example`s showing that concrete non-trivial cases meet the hypotheses.
* Properties that are false of the code get a theorem `..._refuted` (the negation of the claim, by a
  witness computed by the kernel) next to the strongest positive statement.

## Modelling conventions

* A byte is a `Z`; a byte string is `list Z` with `bytes_ok` (all in 0..255) as a hypothesis where needed.
* Python ints are `Z` (unbounded), Python lists/bytearrays are `list`, dicts are association lists in
  insertion order (`DictModel.v`); the order in which a set is iterated is an arbitrary function.
* A raised exception is `Err e`; `e` keeps the Python class. A model-only constructor `OutOfFuel` marks
  an exhausted loop bound; theorems prove it is unreachable (or say what it means, C35).
* Mutable objects are records; an API call is a function from state to state and result. Where the
  sharing of objects is observable (C24-C26) objects live in a heap.
* Time values (floats of milliseconds in Python) are integers of milliseconds, or of microseconds where
  the rounding matters (C38, C43, C52).
* Cryptographic primitives, zlib, MurmurHash3, the random source, transports, directories and application
  callbacks are section variables (universally quantified oracles), never axioms.
* Callbacks of the application: in the node (C27-C30) they may call the API again at any point (a stack of
  loop frames); elsewhere it is said in the model file.

## Plan per property

| id | what is modelled | how it is proved |
|----|------------------|------------------|
| C01 C02 | TlvEncoder/TlvDecoder number functions | case split on size, `lia` with division; context lemma `pre ++ enc ++ post` |
| C03 | DynamicByteArray + TlvEncoder on the real array/length pair | simulation: abstract output = last `length` bytes; induction over operation lists |
| C04 C05 | TlvDecoder as offset-state monad with exceptions, all packet decoders | safety predicate per function, composed; well-founded fuel argument for loops |
| C06 C07 | ElementReader + TlvStructureDecoder state machines | resumption lemma `find (a++b)` = resume; induction over chunks |
| C08 C16-C23 C47 | wire format encoders (backwards) and decoders | encoder = TLV grammar lemma, decoder-on-grammar lemma (cursor predicate over element lists) |
| C09-C13 | Name and Component, URI functions | order theory on lists; induction |
| C14 C15 | Exclude, Interest matching | induction on the exclude list; spec as intervals |
| C24-C26 | Data/Interest with ChangeCounter sub-objects in a heap | invariant over histories of API calls; C25 is false in general (partial) |
| C27-C30 | PIT, delayed calls, tables, Node dispatch as a machine with a stack of callback frames | inductive invariants over event traces |
| C31 C32 C33 | MemoryContentCache, SegmentFetcher, PSyncSegmentPublisher | specification by history; induction on events |
| C34-C36 C49 | DigestTree, IBLT, PSync state and protocol (hash oracles) | sorted-list canonicity, multiset algebra, invariants over exchanges |
| C37-C40 C48 | Interval, RepetitiveInterval, Schedule, ISO strings, the proleptic Gregorian calendar | linear arithmetic, fold invariants, 400-year periodicity |
| C41 C50 C51 | CertificateCacheV2, InMemoryStorageRetaining, TrustAnchorContainer with static and directory groups | dictionary/bisect lemmas, specification by history |
| C42 | Validator, ValidationState, CertificateFetcherFromNetwork, caches and anchors; policy, face, verification arbitrary | invariant on the world (every pending state carries a chain of signatures), one outcome by counting |
| C43 C52 | ValidationPolicyCommandInterest, CommandInterestPreparer/Signer | invariant on the timestamp records over histories; composition of signer and checker |
| C44 | ValidityPeriod | arithmetic and calendar lemmas |
| C45 C46 | Blob and the UTF-8 codec; ControlParameters.equals | codec inversion by cases |
| C53 C54 | CertificateV2/PibKey names, checkFormat, ValidationPolicySimpleHierarchy | list lemmas; C54 is C42 instantiated at this policy |
| C55 | PibMemory | refinement: state = history functions, closure of the history functions |
| C56 | NDN regular expressions | grammar as an inductive type; compile = parse (both directions, by induction on text length); matcher sound and complete against a declarative language semantics, by induction on the expression |
| C57 | back references, expand | captures relation carried through the soundness induction; expand by induction on the pieces |
| C58 | fromName, InterestFilter | instances of C56 |
| C59 | DER nodes | a relation "this node represents this value" kept by constructors and parse, induction over values and nodes; X.690 as a separate relation |
| C60 | updates of DER trees | the same relation is kept by every operation: cached sizes are right or flagged |
| C61 | OID, GeneralizedTime | base 128 numbers; the calendar of C40 |
| C62 | BOOST INFO parser (InfoModel.v): tokens, lines, the parser with its way back to the root, lookup, writing | induction on the layout relation, on the text and on the depth of the tree; opening of files is a parameter; splitlines and strip are modelled with their full sets of Unicode characters; readPropertyList and clone are not modelled |
| C63 | validator configuration: filters, checkers, rules, checkPolicy (ConfModel.v) on the regular expressions of C56 | simulation between the objects, which keep results of earlier matches, and the rules as read (ConfSpec.v); the hierarchical checker by inversion of the captures |
| C64 | validator configuration: load, rules and trust anchors from a property tree, refresh periods | reading relation for each kind of section, both directions; every exception traced to its cause |
| C65 | validator configuration in the Validator of C42 | every step of the chain of C42 is one that a rule allows, by C63 |
| C66 | Pib, its identity, key and certificate containers and implementation objects over PibMemory (C55), with heaps of objects and handles | an invariant ties every cache to the history of calls (FrontProofs.v: Inv); every call keeps it and answers what the specification says |
| C67 | KeyChain over Pib (C66) and Tpm with the memory back end; private keys of an abstract type P, key generation, signing and the like as Section variables | invariant base + coherent kept by every call (ChainProofs6/7: kept, keeps_*, kkeeps), lifted to histories by induction (run_kept) |
| C68 | KeyChain.sign of Data, Interest and buffer, _prepareSignatureInfo, _signBuffer, with the packet encodings of WireModel | case analysis of the signing info against the history (ChainProofs2/3); the signed bytes by the encoder theorems of C06-C10 |
| C69 | createIdentityV2, createKey, selfSign, exportSafeBag, importSafeBag | step theorems with the history of the PIB after each call (ChainProofs4, 5, 7) |
| C70 | SigningInfo: setters, string form and parsing, over the URI model of C12 | case analysis on the kind; uniqueness of the split at the colon; induction on the calls; the signer by the histories of C68 |
| C71 | TpmPrivateKey.loadPkcs8, toPkcs1, toEncryptedPkcs8, loadEncryptedPkcs8 over the DER model of C59; key parsing, PBKDF2, DES-EDE3 as Section variables | rewriting of the DER values by the encode and parse theorems of C59; padding arithmetic |
| C72 | SafeBag.wireEncode, wireDecode over the TLV decoder; _makeSelfSignedCertificate with the TPM of C67 | parsing by the At predicate of C01-C05 and the Data theorems of C18; import by the step theorem of C69 |
| C73 | DecryptorV2: the content keys with their queues, the Interests the Face has with their callbacks, over the KeyChain model of C67 | an invariant over all histories that ties the queue of each CK to its requests, with a case analysis of how a callback ends |
| C74 | the same, with _decryptAndImportKdk, _decryptCkAndProcessPendingDecrypts, _doDecrypt and the name functions | a second invariant: every private key in the internal KeyChain and all CK bits come from received packets |
| C75 | EncryptorV2: the CK, the KEK, the storage, the Interest and timer calls as a state machine; signing as in C68 | two invariants over all histories: what the storage has, and the four modes of the KEK retrieval with a potential for the tries |
| C76 | AccessManagerV2 over the KeyChain model; the flow joins the models of C69, C72, C74, C75 | forward execution of the steps over the KeyChain invariant; composition of the three programs |
| C77 | PibSqlite3 as programs of SQL statements on tables with triggers, unique indices and cascades; processes interleave at statements | table lemmas per statement, an abstraction to functions of names, effect of a call with all its crash points, invariant over all interleavings |
| C78 | ChronoSync2013: each callback and call as a program over state, exceptions, calls of the application inside callbacks and failing signatures; groups of nodes as histories over a set of sent messages | Hoare-style invariants relating the digest tree and the log to the list of all updates (with C34), induction over histories of one node and of a group |
| C79 | TpmBackEndFile: calls as programs of file operations over a map from file names to texts; base64 of the Python library; executions in which each operation may fail and the process may end between operations and inside a write | refinement of the map from names to keys; case analysis of all executions; induction over histories with failures; prefix lemma of base64 |
| C80 | the tables of Sqlite3GroupManagerDb with cascade and unique indices, the dictionary of private keys, _calculateInterval, the packets of getGroupKey, encryptData; the group as two maps | refinement (each row represents an entry) by induction over histories; loop invariant of the interval calculation on top of C39; sorting; the stored pairs as an invariant |
| C81 | Producer.getExcludeEntries, setExcludeEntries, findEntryBeforeOrAt, excludeAfter, excludeRange, excludeBefore on the entry lists of C14 | the entry list as a sorted list with the last entry not after a component; excluded sets by cases of the position |
| C82 | Producer constructor, createContentKey, produce, _sendKeyInterest, _handleTimeout, _handleNetworkNack, _updateKeyRequest, _handleCoveringKey, _encryptContentKey and Sqlite3ProducerDb | histories with the outstanding Interests; each outstanding Interest is a token of the count of its request, lost tokens keep the count positive |
| C83 | Consumer (all methods) and Sqlite3ConsumerDb getKey/addKey/deleteKey; the ciphers and verifyData are parameters of the events | invariant over histories: provenance of every cached key and outstanding Interest; counting of tokens per call |
| C84 | the consumer (C83) in a world of packets as described by C80 and C82 | provenance of C83 and the decoder of EncryptedContent on two concatenated parts |
| C85 | ConfigPolicyManager (all methods) and KeyChain verifyData/verifyInterest/_onCertificateData/_onCertificateInterestTimeout; signature checks, files, base64 certificates and the clock are parameters | invariant over histories (Hoare triples): both caches and the fixed-certificate table hold only trusted certificates; mutual induction authentic/trusted |
| C86 | the same model | invariants: tokens per call, potential of outstanding Interests, timestamps table dominated by the verified ones |
| C87 | Node.onReceivedElement, putData, putNack, send over NodeModel, ReaderModel, WireModel and CtlModel; the filter test and SHA-256 are parameters; exceptions of the dispatch are events of the node, not of the listener | composition: C06 with C16/C17/C18/C21 for the stream, C28/C30 for the callbacks, C04 for arbitrary bytes |
| C88 | Node.registerPrefix, _nfdRegisterPrefix, _RegisterResponse and CommandInterestGenerator.generate over CtlModel, CmdModel, RecvModel and NodeModel; KeyChain.sign is a parameter; isLocal (a callback of the transport) is a parameter | composition with C20, C47, C52 for the command; case analysis and an invariant of the log over every history for the response |
| C89 | Certificate, CertificateSubjectDescription, CertificateExtension, PublicKey (constructor, toDer) and IdentityCertificate over DerModel, PkcsModel.node_toVal and WireModel; the loader of RSA keys and math.floor(x/40) are parameters | DER trees as representations of values (rep of C59) and one encoding per value; induction over the lists; the names by the first KEY and the last ID-CERT |
| C90 | ProtobufTlv.encode, decode, toName; the Protobuf library as data (descriptors, messages as columns of values, proto2 presence, range checks of setattr) | mutual induction over conforming messages; the TLV cursor lemmas; fuel bounded by the bytes left; the image of a round trip as a function, its fixed points characterised |
| C91 | IdentityManager with MemoryIdentityStorage and MemoryPrivateKeyStorage as a state that exceptions do not roll back; the cryptography (generate, derive, sign, load) as functions that may raise | an invariant over histories by induction on the operations; monotonicity of the storages; the certificate by the round trip of C89 and the signed portion by C18 |
| C92 | sign and verify methods of a version 1 KeyChain with SelfVerify and NoVerify policies over the identity manager of C91; signature verification, SHA-256 and HMAC as functions | exact characterisation of Verified by cases; an ownership invariant (stored public keys are those of the private keys) over histories; the wire round trips C16, C18 and C47 for what is sent |
| C93 | ExponentialReExpress over the pending Interests of a Face; which pending Interests a Data packet answers is given by the history | invariant over histories for each Interest that the application has expressed; the bound from the doubling |
| C94 | Link over the Data wire format (C18) and the delegation set (C22); what a failed decoding leaves in the object is a parameter | invariant over histories (the content is the encoding of the delegations, or decodes to them); C18 and C22 for the round trip |
| C95 | Name objects with change counter and kept hash, in a heap; dictionaries with kept hashes and key objects; hash() of bytes and of integers as functions | invariant of the kept hash; simulation of the dictionary by the map of names (the dictionaries of the other models) |
| C96 | FilePrivateKeyStorage as programs of file operations that can fail or be cut off, files with modes; the cryptography package as oracles | simulation of a map of names for runs without failures; case analysis of all cuts of a call and an invariant of what the files hold; a cut DER sequence is refused (C59_cut_sequence) |
| C97 | the constructor of KeyChain with locators, _getDefault...Locator with the class variables, ConfigFile, Pib._reset and setTpmLocator as programs of SQL statements (C77) | one relation with all outcomes of the constructor (init_cases), a rule for histories, case analysis of the crash points |
| C98 | the three tables as rows of texts, every call of BasicIdentityStorage as its SQL statements | the rows are the image of relations on names (injectivity of the URI, C12), one lemma per kind of statement; an invariant for uniqueness, parents and defaults |

No property of `properties.jsonl` is left without a model. C25 is the only one with status `partial`: the claim is
false of the code (three `_refuted` theorems), and what does hold is proved under the suffix `_partial`.

## Trusted base

* Coq's kernel (8.16.1), including its `vm_compute` reduction (used in `Example`s, `_refuted` witnesses and a few
  finite case checks).
* The reading of the Python code expressed by the model definitions (each cites its lines) and the
  specification files.
* `Print Assumptions` is printed after the theorems of each `Props` file and says "Closed under the global context"
  for every one of them; the development declares no axiom.
* `vcheck` lists seven constants of the standard library's ssreflect support that are loaded, not used by any
  theorem: `Coq.ssr.ssrunder.Under_rel.{Over_rel, Under_rel_from_rel, over_rel, over_rel_done, Under_rel,
  Under_relE, under_rel_done}` (fields of the module type of the standard library's `under` tactic).

## What is modelled

Generated from the citations in the model files: file of /repo/python/pyndn and line ranges.

* `AmModel.v`: access_manager_v2.py 153-164
* `BagChainModel.v`: safe_bag.py 81-90, 173-222, 194-195
* `BagModel.v`: data.py 47-53; safe_bag.py 120-147, 149-171
* `BisModel.v`: basic_identity_storage.py 46-85, 97-141, 388-392, 401-420
* `BlobModel.v`: blob.py 46-82, 142-153, 175-186, 197-224, 217-224, 226-259, 249-253, 254-259, 261-288, 282-288, 298-316, 311-313, 318-332; common.py 139-141
* `CalModel.v`: common.py 73-87; schedule.py 316-328, 330-350; tlv_0_2_wire_format.py 1589-1601, 1603-1624
* `CertModel.v`: certificate_cache_v2.py 44-56, 58-97, 112-127, 128-158, 147-158, 160-180, 182-188, 222-246, 233-244; certificate_v2.py 90-120, 172-185; dynamic_trust_anchor_group.py 47-56, 63-93, 91-93, 95-106; name.py 1277-1278; static_trust_anchor_group.py 39-53, 55-66; trust_anchor_container.py 90-104, 105-114, 116-121, 137-172, 161-172, 174-189, 200-252, 208-226, 228-242, 251-252, 254-256; trust_anchor_group.py 38-42, 62-66
* `ChainModel.v`: certificate_v2.py 90-120; key_chain.py 114-115, 254-289, 285-286, 304-311, 316-322, 325-331, 335-362, 364-378, 380-392, 396-415, 417-431, 433-446, 524-540, 541-560, 561-568, 570-618, 622-649, 651-726, 1629-1692, 1629-1726, 1728-1746; key_params.py 31-78; signing_info.py 75-79, 75-99, 135-145, 147-231, 187-250, 349-358; tpm.py 54-59, 73-81, 83-97, 99-118, 186-206, 208-223, 225-241, 243-260, 262-287; tpm_back_end.py 74-110, 93-106, 123-142, 144-164, 206-231; tpm_back_end_memory.py 35-36, 42-51, 53-66, 68-91, 93-105, 107-133, 135-161; tpm_key_handle_memory.py 46-64
* `CmdModel.v`: command_interest_preparer.py 46-48, 50-85, 65-73, 68-69; command_interest_signer.py 44-49, 87-93; common.py 62-70; key_chain.py 541-560; validation_policy.py 133-170, 172-192; validation_policy_command_interest.py 49-67, 105-126, 128-151, 162-172, 174-183, 185-218, 220-252, 247-248, 254-270, 272-284
* `ConfModel.v`: config_checker.py 36-62, 65-84, 104-115, 118-127, 130-144, 147-217, 230-249, 260-274, 284-292, 294-330; config_filter.py 34-54, 57-73, 87-118, 142-152, 174-183; config_name_relation.py 54-72, 75-92; config_rule.py 79-111, 105-111, 113-148, 140-148, 151-195; validation_policy_config.py 53-115, 105-110, 114-115, 117-171, 125-127, 141-151, 158-168, 173-225, 228-257
* `ConsModel.v`: consumer.py 61-76, 61-446, 78-116, 109-113, 127-141, 159-163, 165-197, 199-239, 232-237, 241-287, 264-267, 281-285, 289-349, 351-419, 389-395, 397-401, 434-444; encrypt_error.py 48-56; encrypted_content.py 241-260; key_chain.py 1149-1207; sqlite3_consumer_db.py 39-41, 49-124, 60-84, 86-105, 107-124
* `CpmModel.v`: certificate_cache_v2.py 58-97, 112-127, 953-963; certificate_v2.py 158-170, 202-216; config_policy_manager.py 61-1025, 90-117, 119-140, 142-158, 160-185, 187-198, 200-236, 215-226, 238-413, 259-306, 307-340, 341-410, 369-410, 448-479, 481-516, 499-512, 518-541, 543-566, 568-597, 599-628, 617-624, 630-755, 689-716, 757-830, 824-826, 832-900, 874-877, 906-913, 928-939, 966-998, 967-993, 995-998, 1000-1025, 1010-1024; key_chain.py 1149-1272, 1188-1207, 1192-1195, 1196-1200, 1254-1272, 1258-1261, 1750-1783, 1761-1783, 1770-1774; policy_manager.py 129-160
* `CtlModel.v`: control_parameters.py 26-59, 264-276; control_response.py 40-56; encrypted_content.py 39-48, 199-207; network_nack.py 26-94, 96-111; node.py 711-752; registration_options.py 37-86, 55-70, 72-86; tlv_0_2_wire_format.py 380-408, 410-427, 429-456, 458-493, 502-535, 537-556, 558-634, 576-632, 592-610, 623-625, 674-700, 702-730, 732-760, 762-795, 1270-1310, 1312-1380
* `DelegModel.v`: delegation_set.py 81-97, 99-121, 112-120, 123-134, 136-157, 159-164, 186-198; tlv_0_2_wire_format.py 636-672
* `DerModel.v`: der_node.py 45-51, 53-74, 61-62, 69-72, 76-115, 105-113, 117-123, 125-141, 143-185, 249-261, 270-280, 282-295, 282-303, 297-303, 305-319, 321-339, 345-369, 371-386, 388-427, 403-409, 429-445, 447-454, 456-462, 464-479, 481-507, 509-526, 528-543, 545-561, 573-588, 603-615, 617-628; oid.py 38-45, 47-57
* `DigestModel.v`: digest_tree.py 32-34, 36-52, 99-113, 115-139, 141-145, 147-188, 180-185, 190-196, 225-236
* `EncModel.v`: data.py 214-249; encryptor_v2.py 309-316
* `EncrModel.v`: encryptor.py 41-47, 49-118, 120-154, 156-185, 179-183
* `ExclModel.v`: producer.py 451-651, 452-461, 463-486, 488-508, 510-527, 529-568, 540-562, 570-578, 580-651, 602-624
* `FpkModel.v`: file_private_key_storage.py 44-55
* `FrontModel.v`: pib.py 49-57, 86-98, 114-125, 127-143, 145-153, 155-166, 168-183, 185-200; pib_certificate_container.py 38-48, 69-77, 79-105, 87-91, 107-139, 128-132, 141-151; pib_identity_container.py 38-47, 58-73, 75-96, 98-117, 119-125, 127-136; pib_identity_impl.py 45-51, 45-61, 73-87, 89-102, 104-116, 118-151, 153-169; pib_key_container.py 39-50, 61-83, 74-77, 85-109, 93-95, 111-135, 121-123, 137-150, 152-161; pib_key_impl.py 54-98, 58-77, 79-98, 129-136, 138-151, 153-167, 169-180, 182-208, 210-226
* `GmModel.v`: group_manager.py 52-60, 62-123, 93-95, 97-103, 113-121, 125-208, 210-266, 234-253, 248-249, 268-284, 286-305, 296-298, 301-302, 307-333; sqlite3_group_manager_db.py 34-70
* `HashModel.v`: blob.py 318-332; name.py 36-50, 608-612, 1299-1302
* `HeapModel.v`: change_counter.py 50-59, 61-80; data.py 38-46, 39-46, 48-51, 48-58, 53-58, 57-58, 61-91, 93-126, 164-180, 214-249, 239-249, 316-332, 334-340, 338-378; interest.py 41-63, 42-63, 65-77, 65-89, 83-88, 86-88, 197-210, 556-566, 603-633, 635-668, 708-730, 718-724, 726-730, 837-853, 879-896, 898-904; key_locator.py 120-127, 168-182; sha256_with_rsa_signature.py 44-45, 131-146; tlv_0_2_wire_format.py 239-297, 1519-1587
* `HierModel.v`: certificate_v2.py 107-120, 122-129, 131-138, 140-147, 149-156, 266-277, 280-293, 296-310; interest.py 66-88; pib_key.py 108-120, 123-133, 136-149; validation_policy.py 111-130, 133-170; validation_policy_simple_hierarchy.py 35-53; validator.py 43-100
* `IbltModel.v`: invertible_bloom_lookup_table.py 51-63, 65-85, 80-85, 87-101, 103-145, 124-137, 126-134, 147-166, 168-214, 197-223, 216-234, 242-251, 253-263, 265-269, 271-287, 283-287, 289-313, 315-316
* `IcertModel.v`: certificate.py 33-48, 50-71, 104-116, 118-149, 151-159, 161-201, 182-187, 195-201, 203-208, 233-243, 279-323, 288-292, 310-323, 325-388, 336-340, 345-361; der_node.py 473-479; identity_certificate.py 32-49, 51-77, 79-84, 93-104, 106-110, 112-150; oid.py 22-29; public_key.py 48-56, 48-80, 82-89, 111-127
* `IdmModel.v`: identity_manager.py 740-756; identity_storage.py 61-87, 233-244, 268-277, 320-334, 336-337; memory_identity_storage.py 36-47, 49-57, 81-89, 155-163; memory_private_key_storage.py 36-41, 43-98, 62-80
* `InfoModel.v`: boost_info_parser.py 23-89, 41-46, 48-83, 122-146, 148-164, 166-182, 191-207, 209-210, 216-218, 256-268, 309-365, 356-358, 361-363
* `LinkModel.v`: data.py 251-261, 276-288, 290-300; link.py 45-55, 56-58, 60-80, 82-105, 107-128, 140-149; meta_info.py 98-108
* `LocModel.v`: pib.py 86-98, 145-153; pib_sqlite3.py 219-225, 219-248
* `MatchModel.v`: data.py 239-243; exclude.py 187-240, 204-210; interest.py 732-759, 761-835; key_locator.py 129-166, 191-206
* `MccModel.v`: memory_content_cache.py 48-69, 172-173, 209-214, 238-302, 266-275, 283-302, 304-317, 362-438, 378-422, 440-457, 463-480, 487-538, 540-587, 554-564
* `NacModel.v`: aes_algorithm.py 74-105, 97-105, 107-140, 120-125; blob.py 106-120; decryptor_v2.py 53-65, 67-79, 81-135, 137-153, 155-235, 173-213, 186-201, 229-235, 237-297, 258-273, 266-268, 291-297, 299-329, 331-368, 370-398, 400-419, 421-462; encrypt_error.py 28-56; encrypted_content.py 262-281; encryptor_v2.py 303-307; tpm.py 120-136; tpm_key_handle_memory.py 66-78
* `NameModel.v`: blob.py 197-224, 226-259; name.py 71-97, 166-224, 226-251, 253-265, 267-286, 288-354, 356-369, 371-398, 382-385, 400-421, 423-439, 441-507, 509-528, 530-549, 551-580, 562-568, 609-611, 752-777, 779-792, 946-963, 965-1043, 1005-1009, 1024-1034, 1045-1070, 1072-1093, 1095-1105, 1244-1264
* `NodeModel.v`: delayed_call_table.py 41-52, 78-90; interest_filter_table.py 31-48, 99-113, 115-137; node.py 86-178, 150-153, 403-467, 497-554, 628-641, 643-687, 754-757, 759-842, 775-831; pending_interest_table.py 32-57, 121-157, 159-218, 220-267, 269-295; registered_prefix_table.py 40-65, 67-109, 111-128
* `PibModel.v`: certificate_v2.py 90-93; pib_memory.py 38-58, 66-73, 86-94, 96-108, 110-128, 130-139, 141-154, 156-166, 168-180, 184-193, 195-216, 218-239, 241-254, 256-273, 275-288, 290-307, 311-319, 321-343, 345-366, 368-381, 383-402, 404-420, 422-438
* `PkcsModel.v`: blob.py 46-82, 155-173; der_node.py 187-193, 203-211, 213-235, 263-268, 363-369, 384-386, 418-427, 545-561, 583-588, 617-628; tpm_private_key.py 51-53, 65-112, 104-112, 114-155, 148-155, 157-282, 174-188, 196-210, 218-224, 260-269, 373-392, 394-410, 412-499, 447-452, 466-496, 552-557
* `ProdModel.v`: producer.py 71-103, 71-449, 91-98, 100-103, 113-187, 140-145, 164-166, 168-185, 189-217, 219-223, 225-230, 232-243, 245-279, 281-307, 309-329, 331-352, 354-401, 403-449, 425-428; producer_db.py 84-94; sqlite3_producer_db.py 40-42, 44-161, 61-85, 87-117, 119-140
* `PsyncModel.v`: common.py 226-242; full_psync2017.py 105-107, 116-130, 132-139, 141-144, 146-187, 194-281, 261-268, 283-328, 330-382, 352-362, 373-375, 384-430, 395-430, 416-421, 432-446, 448-470; full_psync2017_with_users.py 89-97, 99-112, 114-125, 127-150, 152-176, 187-196, 203-226, 228-252; psync_producer_base.py 40-52, 54-67, 61-62, 69-81; psync_user_prefixes.py 30-32, 44-55, 57-75, 91-127
* `PtlvModel.v`: protobuf_tlv.py 42-58, 60-74, 76-94, 96-137, 139-171, 143-171, 151-160, 173-196
* `ReaderModel.v`: element_reader.py 38-43, 45-129; tlv_structure_decoder.py 30-39, 41-45, 47-199, 67-71, 73-199, 82-88, 118-124, 178-184
* `RecvModel.v`: node.py 301-329, 301-362, 331-348, 350-362, 403-461, 403-467, 412-467, 422-437, 711-752, 780-794
* `RegModel.v`: command_interest_generator.py 59-65; node.py 122-125, 191-253, 209-253, 556-606, 567-598, 574-581, 600-606; registration_options.py 37-46
* `RegexModel.v`: interest_filter.py 41-56, 58-94, 122-139; name.py 72-97, 562-612; ndn_regex_backref_matcher.py 37-47; ndn_regex_component_matcher.py 33-42, 44-71, 61-63, 73-82; ndn_regex_component_set_matcher.py 40-64, 53-56, 66-89, 91-110, 112-121, 123-146; ndn_regex_matcher_base.py 65-85, 108-130, 123-130; ndn_regex_pattern_list_matcher.py 36-92, 94-116, 118-145, 133-143; ndn_regex_pseudo_matcher.py 35-42; ndn_regex_repeat_matcher.py 42-60, 62-77, 79-138, 140-167, 160-167; ndn_regex_top_matcher.py 33-44, 46-71, 73-110, 112-130, 132-149, 151-196, 181-194, 198-224
* `RexModel.v`: exponential_re_express.py 76-78, 83-106; interest.py 197-210, 568-580; node.py 116-125, 116-145, 497-542, 497-552, 526-549, 619-626
* `SchedModel.v`: interval.py 50-59, 60-65, 77-93, 95-129, 131-172, 174-196, 207-218; repetitive_interval.py 64-93, 94-101, 103-107, 114-154, 156-195, 251-292, 294-307; schedule.py 56-82, 89-144, 146-176, 158-171, 178-211, 198-200, 206-208, 213-231, 233-261, 263-288, 290-314
* `SegModel.v`: segment_fetcher.py 51-120, 83-120, 124-130, 197-201, 203-211, 236-309, 290-299, 328-337
* `SelfModel.v`: data.py 210-236; identity_manager.py 466-477, 563-598, 600-626, 628-661; interest.py 604-633; key_chain.py 1086-1107, 1149-1207, 1209-1272, 1282-1351, 1353-1381, 1383-1416; policy_manager.py 129-160; self_verify_policy_manager.py 52-58, 172-193; verification_helpers.py 38-107
* `SinfoModel.v`: signing_info.py 75-79, 90-96, 103-133, 147-185, 187-197, 199-231, 252-278, 280-290, 301-314, 328-347, 360-379
* `SqlModel.v`: certificate_v2.py 86-93, 202-216; pib_sqlite3.py 36-205
* `StoreModel.v`: in_memory_storage_retaining.py 40-47, 49-70, 72-85, 87-94; psync_state.py 68-87, 81-82, 89-112, 107-110
* `TfModel.v`: common.py 170-195, 190-195; tpm_back_end.py 52-60, 74-110, 93-106, 123-142, 143-171, 144-164, 173-199, 206-231; tpm_back_end_file.py 108-130
* `TlvModel.v`: dynamic_byte_array.py 37-56, 58-74, 76-95, 97-115; tlv_decoder.py 41-57, 59-91, 93-114, 116-131, 133-170, 153-166, 172-195, 197-234, 236-249, 251-268, 270-290, 292-311, 313-332, 334-354, 356-367, 369-379, 381-388, 390-396, 398-411; tlv_encoder.py 35-39, 41-50, 52-89, 91-102, 104-140, 142-154, 156-166, 168-180, 182-195, 197-214, 216-227, 229-238
* `UriModel.v`: blob.py 261-288; name.py 130-164, 614-701, 648-701, 671-689, 813-836, 1153-1186, 1171-1175, 1188-1237, 1207-1211, 1223-1227, 1308-1340
* `ValModel.v`: certificate_fetcher.py 42-80, 77-79; certificate_fetcher_from_network.py 49-67, 69-85, 87-104, 106-111; certificate_fetcher_offline.py 34-43; certificate_request.py 40-46; certificate_storage.py 30-33, 35-49, 64-70, 129-136; certificate_v2.py 90-120, 172-185, 187-200; data_validation_state.py 46-57, 59-71, 83-102, 104-116; interest_validation_state.py 60-72, 91-113, 115-129; validation_policy.py 93-130; validation_state.py 46-52, 100-113, 115-126, 128-139, 160-196; validator.py 100-106, 117-149, 151-177, 179-215; verification_helpers.py 109-156, 159-213
* `WireModel.v`: blob.py 298-316; delegation_set.py 50-97; exclude.py 46-89; interest.py 40-89, 146-156; key_locator.py 37-52; meta_info.py 157-166; tlv_0_2_wire_format.py 65-101, 103-132, 134-201, 138-150, 163-184, 203-237, 239-297, 264-270, 272-283, 299-336, 338-378, 810-825, 827-854, 856-892, 874-878, 894-926, 921-923, 928-953, 955-984, 986-1004, 1006-1020, 1022-1054, 1056-1087, 1089-1149, 1102-1112, 1151-1194, 1196-1212, 1214-1236, 1238-1249, 1251-1268, 1382-1402, 1404-1430, 1432-1516, 1461-1482, 1484-1496, 1518-1587, 1554-1560; validity_period.py 48-142, 104-122, 124-142

## What is not modelled

* Transports and sockets, `ThreadsafeFace`/asyncio, the optional C bindings (`_pyndn`), Python 2 code paths,
  logging and texts of error messages.
* Cryptography (RSA, EC, HMAC, AES, SHA-256, PBKDF2), zlib, mmh3: oracles.
* Floating point: times are integers (see the conventions).
* Files, SQLite databases and the operating system key stores (`pib_sqlite3`, `tpm_back_end_file`, `*_osx`,
  `sqlite3_*_db`, `basic_identity_storage`).
* The old security library v1 (`security/identity`, `security/policy`, `security/certificate`).
