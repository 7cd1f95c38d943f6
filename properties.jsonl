{"id": "C01", "title": "TLV VAR-NUMBER round trip", "statement": "Writing any number 0 <= n < 2^64 with TlvEncoder.writeVarNumber and reading it back with TlvDecoder.readVarNumber returns n and advances the offset by exactly the written size, whatever bytes precede or follow; the encoding is the shortest of the four NDN forms, and no encoding is a proper prefix of another.", "quantifier": "all n in [0,2^64), all surrounding byte strings", "why_tests_cant": "2^64 values times arbitrary context", "anchors": ["python/pyndn/encoding/tlv/tlv_encoder.py:TlvEncoder.writeVarNumber", "python/pyndn/encoding/tlv/tlv_decoder.py:TlvDecoder.readVarNumber"]}
{"id": "C02", "title": "TLV nonNegativeInteger round trip", "statement": "For 0 <= n < 2^64 a TLV written by writeNonNegativeIntegerTlv is read back as n by readNonNegativeIntegerTlv; a negative value raises ValueError; a value >= 2^64 is NOT rejected but silently written modulo 2^64.", "quantifier": "all integers n, all types < 2^64, all contexts", "why_tests_cant": "unbounded integer domain", "anchors": ["python/pyndn/encoding/tlv/tlv_encoder.py:TlvEncoder.writeNonNegativeIntegerTlv", "python/pyndn/encoding/tlv/tlv_decoder.py:TlvDecoder.readNonNegativeIntegerTlv"]}
{"id": "C03", "title": "Encoder output independent of buffer capacity and growth", "statement": "For every sequence of TlvEncoder write calls, the bytes returned by getOutput (and len(encoder), and any exception) are a function of the calls only: the same for every positive initial capacity, however often the backing array was grown. (With initial capacity 0 this fails.)", "quantifier": "all finite sequences of write operations, all initial capacities", "why_tests_cant": "unbounded operation sequences and buffer sizes", "anchors": ["python/pyndn/encoding/tlv/tlv_encoder.py:TlvEncoder", "python/pyndn/util/dynamic_byte_array.py:DynamicByteArray"]}
{"id": "C04", "title": "Decoding arbitrary bytes is safe", "statement": "Every packet decoder (Name, Interest, Data, LpPacket, ControlParameters, ...) given an arbitrary byte string terminates and either succeeds, with the offset inside the input, or raises a documented decoding error (ValueError / RuntimeError); it never raises IndexError, never loops and never reports a value built from bytes outside the input.", "quantifier": "all byte strings", "why_tests_cant": "infinite adversarial input space", "anchors": ["python/pyndn/encoding/tlv/tlv_decoder.py:TlvDecoder", "python/pyndn/encoding/tlv_0_2_wire_format.py:Tlv0_2WireFormat"]}
{"id": "C05", "title": "Unrecognized-TLV critical rule", "statement": "finishNestedTlvs succeeds exactly when the remaining bytes up to the end offset are a sequence of well-formed TLVs, each non-critical (type > 31 and even) unless skipCritical is set, ending exactly at the end offset; it then leaves the offset there. In particular an unrecognized critical TLV is always rejected.", "quantifier": "all inputs, offsets and end offsets", "why_tests_cant": "unbounded sequences of unknown TLVs", "anchors": ["python/pyndn/encoding/tlv/tlv_decoder.py:TlvDecoder.finishNestedTlvs"]}
{"id": "C06", "title": "Stream reassembly is independent of chunking", "statement": "Feeding a byte stream to ElementReader.onReceivedData in any division into chunks delivers the same sequence of elements to the listener: exactly the sequence of top-level TLVs in the stream, each complete and byte-identical, in order, as long as no partial element exceeds MAX_NDN_PACKET_SIZE.", "quantifier": "all byte streams of concatenated TLVs and all ways to cut them into chunks", "why_tests_cant": "exponentially many chunkings of unbounded streams", "anchors": ["python/pyndn/encoding/element_reader.py:ElementReader.onReceivedData", "python/pyndn/encoding/tlv/tlv_structure_decoder.py:TlvStructureDecoder.findElementEnd"]}
{"id": "C07", "title": "Oversized partial packets are rejected and bounded", "statement": "The bytes buffered by ElementReader never exceed MAX_NDN_PACKET_SIZE after onReceivedData returns; when the partial data would exceed it the call raises ValueError and the reader is reset to its initial state so later elements are still decoded.", "quantifier": "all histories of received chunks", "why_tests_cant": "unbounded histories", "anchors": ["python/pyndn/encoding/element_reader.py:ElementReader.onReceivedData"]}
{"id": "C08", "title": "Name wire round trip", "statement": "decodeName(encodeName(n)) restores the component sequence including each component type (generic, implicit digest, parameters digest, other code) and value, for every name whose digest components have 32 bytes; the reported signed-portion offsets delimit exactly all components but the last.", "quantifier": "all names", "why_tests_cant": "unbounded names and component values", "anchors": ["python/pyndn/encoding/tlv_0_2_wire_format.py:encodeName,decodeName,_encodeName,_decodeName"]}
{"id": "C09", "title": "Canonical order is a total order", "statement": "Name.compare (and Component.compare) is antisymmetric and transitive and orders names by NDN canonical order: by component type, then length, then bytes, then the shorter name first; compare == 0 iff the names are equal in (type code, value).", "quantifier": "all names / triples of names", "why_tests_cant": "all triples over an infinite domain", "anchors": ["python/pyndn/name.py:Name.compare", "python/pyndn/name.py:Name.Component.compare"]}
{"id": "C10", "title": "Prefix matching", "statement": "a.isPrefixOf(b) (Name.match) holds iff a has no more components than b and each component value of a equals that of b; getPrefix(k) and getSubName are the corresponding slices, so n.getPrefix(k).isPrefixOf(n). Intended stronger property (component types are also compared) fails.", "quantifier": "all pairs of names, all integer indices including negative", "why_tests_cant": "infinite domain with negative-index cases", "anchors": ["python/pyndn/name.py:Name.match", "python/pyndn/name.py:Name.getPrefix", "python/pyndn/name.py:Name.getSubName"]}
{"id": "C11", "title": "Component and name successor", "statement": "c.getSuccessor() is strictly greater than c in canonical order and no component lies strictly between; n.getSuccessor() is greater than n and than every name having n as prefix, and every name z with n < z < succ(n) has n as proper prefix.", "quantifier": "all components and names", "why_tests_cant": "universally quantified minimality", "anchors": ["python/pyndn/name.py:Name.getSuccessor", "python/pyndn/name.py:Name.Component.getSuccessor"]}
{"id": "C12", "title": "URI escaping round trip", "statement": "Name.fromEscapedString(Name.toEscapedString(v)) == v for every byte string, including the all-dots case; the escaped text uses only the unreserved alphabet; and Name(n.toUri()) == n for names of generic/other-code components (not for names with a digest component before the last position, where the parser fails).", "quantifier": "all byte strings; all names", "why_tests_cant": "all byte strings over all 256 values", "anchors": ["python/pyndn/name.py:Name.toEscapedString", "python/pyndn/name.py:Name.fromEscapedString", "python/pyndn/name.py:Name.set", "python/pyndn/name.py:Name.toUri"]}
{"id": "C13", "title": "Number components follow the naming conventions", "statement": "For n in [0,2^64) and the segment/version/timestamp/sequence/offset markers, fromX(n).toX() == n; isX() recognizes exactly values with that marker; a different marker makes toX raise RuntimeError; and for equal-size encodings numeric order agrees with canonical order.", "quantifier": "all numbers, all markers", "why_tests_cant": "2^64 values", "anchors": ["python/pyndn/name.py:Name.Component.fromNumberWithMarker", "python/pyndn/name.py:Name.Component.toNumberWithMarker"]}
{"id": "C14", "title": "Exclude matching is interval membership", "statement": "Exclude.matches(c) is true iff c equals an excluded component or lies strictly between the components around an ANY (unbounded at the ends), for every well-formed exclude filter (no two adjacent ANY); on adjacent ANYs after a component it can crash.", "quantifier": "all exclude lists and components", "why_tests_cant": "unbounded lists", "anchors": ["python/pyndn/exclude.py:Exclude.matches"]}
{"id": "C15", "title": "Interest matching rules", "statement": "Interest.matchesName(n) holds iff the interest name is a prefix of n, the suffix count (including the implicit digest) lies in [minSuffixComponents, maxSuffixComponents] and the next component is not excluded; matchesData adds the digest-component and publisher key locator checks.", "quantifier": "all interests, names and data packets", "why_tests_cant": "product of infinite domains", "anchors": ["python/pyndn/interest.py:Interest.matchesName", "python/pyndn/interest.py:Interest.matchesData"]}
{"id": "C16", "title": "Interest v0.2 round trip", "statement": "decodeInterest(encodeInterest(i)) into a fresh Interest restores name, selectors, exclude, nonce, lifetime, forwarding hint and link fields, for every encodable v0.2 interest.", "quantifier": "all interests", "why_tests_cant": "unbounded structure", "anchors": ["python/pyndn/encoding/tlv_0_2_wire_format.py:_encodeInterest...,decodeInterest,_decodeInterestV02"]}
{"id": "C17", "title": "Interest v0.3 (ApplicationParameters) round trip", "statement": "An Interest with ApplicationParameters survives encode/decode. False in general: when CanBePrefix, MustBeFresh and ForwardingHint are all absent the v0.2 decoder accepts the packet and silently drops the parameters; it holds whenever one of them is present.", "quantifier": "all interests", "why_tests_cant": "unbounded structure; needs the interplay of two decoders", "anchors": ["python/pyndn/encoding/tlv_0_2_wire_format.py:_encodeInterestV03,_decodeInterestV03,decodeInterest"]}
{"id": "C18", "title": "Data round trip", "statement": "decodeData(encodeData(d)) restores name, meta info, content, signature (type, key locator, validity period, value) for every encodable data packet and every supported signature type.", "quantifier": "all data packets", "why_tests_cant": "unbounded structure", "anchors": ["python/pyndn/encoding/tlv_0_2_wire_format.py:encodeData,decodeData"]}
{"id": "C19", "title": "Signed portion is exactly name..signatureInfo", "statement": "The signed-portion offsets returned by encodeData and by decodeData of its output are the same and delimit exactly the bytes from the Name TLV through the SignatureInfo TLV: they do not depend on the signature value.", "quantifier": "all data packets and signature values", "why_tests_cant": "all packets", "anchors": ["python/pyndn/encoding/tlv_0_2_wire_format.py:encodeData,decodeData"]}
{"id": "C20", "title": "Control parameters / response round trip", "statement": "ControlParameters and ControlResponse survive encode/decode field by field, and registration flags survive getNfdForwardingFlags/setNfdForwardingFlags.", "quantifier": "all field combinations (each optional)", "why_tests_cant": "2^k presence combinations times unbounded values", "anchors": ["python/pyndn/encoding/tlv_0_2_wire_format.py:encodeControlParameters,decodeControlParameters,encodeControlResponse,decodeControlResponse", "python/pyndn/registration_options.py"]}
{"id": "C21", "title": "LpPacket decoding", "statement": "decodeLpPacket extracts the fragment and recognized header fields of every well-formed LpPacket, ignores unknown fields only in the ignorable range (800..959 with low two bits zero) and rejects others; a network Nack encoded by the library decodes to the same reason.", "quantifier": "all header field sequences", "why_tests_cant": "unbounded sequences of header fields", "anchors": ["python/pyndn/encoding/tlv_0_2_wire_format.py:decodeLpPacket", "python/pyndn/node.py:_encodeLpNack"]}
{"id": "C22", "title": "Delegation set", "statement": "After any sequence of DelegationSet.add calls the delegations are sorted by (preference, name) and hold one entry per name with the last preference; encode/decode of the set is the identity.", "quantifier": "all histories of add/remove, all sets", "why_tests_cant": "unbounded histories", "anchors": ["python/pyndn/delegation_set.py:DelegationSet.add", "python/pyndn/encoding/tlv_0_2_wire_format.py:encodeDelegationSet,decodeDelegationSet"]}
{"id": "C23", "title": "Encrypted content round trip", "statement": "EncryptedContent v1 and v2 encodings decode to the same algorithm type, key locator, initial vector, payload and payload key.", "quantifier": "all field values", "why_tests_cant": "unbounded", "anchors": ["python/pyndn/encoding/tlv_0_2_wire_format.py:encodeEncryptedContent,decodeEncryptedContent,encodeEncryptedContentV2,decodeEncryptedContentV2"]}
{"id": "C24", "title": "Cached wire encoding is coherent", "statement": "After any history of mutations of a Data packet (directly or through its name, meta info, signature or key locator sub-objects) and wireEncode calls, wireEncode returns the encoding of the current field values, never a stale cached one.", "quantifier": "all histories of API calls", "why_tests_cant": "unbounded mutation histories with aliasing sub-objects", "anchors": ["python/pyndn/data.py:Data.wireEncode,getDefaultWireEncoding,getChangeCount", "python/pyndn/util/change_counter.py:ChangeCounter"]}
{"id": "C25", "title": "Data.getFullName is coherent", "statement": "getFullName returns the name plus the SHA-256 digest of the current encoding. False in general: the cached full name is never invalidated by a mutation followed by wireEncode.", "quantifier": "all histories of API calls", "why_tests_cant": "unbounded histories", "anchors": ["python/pyndn/data.py:Data.getFullName"]}
{"id": "C26", "title": "Interest nonce follows changes", "statement": "getNonce returns an empty nonce after any change to the interest following the nonce being set; refreshNonce always yields a different nonce of the same length and keeps it valid.", "quantifier": "all histories", "why_tests_cant": "unbounded histories, random source", "anchors": ["python/pyndn/interest.py:Interest.getNonce,setNonce,refreshNonce"]}
{"id": "C27", "title": "Pending interest: at most one terminal callback", "statement": "For every history of expressInterest / data / nack / timeout / removePendingInterest events, each expressed interest gets at most one terminal callback (onData, onTimeout or onNetworkNack), exactly one once its lifetime is over and the delayed calls have been processed (when no test of a pending interest raises), and none after it has been removed unless it already belongs to the batch of a packet being delivered.", "quantifier": "all event schedules", "why_tests_cant": "all interleavings", "anchors": ["python/pyndn/impl/pending_interest_table.py:PendingInterestTable", "python/pyndn/node.py:Node.expressInterest,onReceivedElement"]}
{"id": "C28", "title": "Data is delivered to exactly the matching pending interests", "statement": "On arrival of a Data packet, exactly the pending interests which match it are removed from the table and called back, others stay, in order; a Nack removes exactly the entries with an equal interest.", "quantifier": "all tables and packets", "why_tests_cant": "unbounded tables", "anchors": ["python/pyndn/impl/pending_interest_table.py:extractEntriesForExpressedInterest,extractEntriesForNackInterest"]}
{"id": "C29", "title": "Delayed calls: order and timing", "statement": "DelayedCallTable keeps calls sorted by time, never calls one early, calls every due one exactly once, in time order and FIFO among equal times, also when callbacks schedule more calls.", "quantifier": "all histories of callLater and callTimedOut, reentrant callbacks", "why_tests_cant": "all schedules", "anchors": ["python/pyndn/impl/delayed_call_table.py:DelayedCallTable"]}
{"id": "C30", "title": "Interest filter and registered prefix tables", "statement": "Interests are dispatched to exactly the filters matching; removing a registered prefix also removes its filter and prevents it from reappearing when the registration completes later; ids handed out are unique.", "quantifier": "all histories of set/unset/register/remove", "why_tests_cant": "all interleavings of asynchronous completion and removal", "anchors": ["python/pyndn/impl/interest_filter_table.py", "python/pyndn/impl/registered_prefix_table.py", "python/pyndn/node.py:registerPrefix,removeRegisteredPrefix,getNextEntryId"]}
{"id": "C31", "title": "Memory content cache", "statement": "The stale-time list stays sorted; an interest with mustBeFresh is never answered by data past its freshness; the answer always matches the interest and is leftmost/rightmost as requested by the child selector; expired content is purged.", "quantifier": "all histories of add/interest/time", "why_tests_cant": "unbounded histories", "anchors": ["python/pyndn/util/memory_content_cache.py:MemoryContentCache"]}
{"id": "C32", "title": "Segment fetcher", "statement": "If onComplete is called, the content is the concatenation of segments 0..final in order; onComplete/onError are called at most once in total.", "quantifier": "all response sequences (data, timeouts, wrong names, verification failures)", "why_tests_cant": "all schedules of replies", "anchors": ["python/pyndn/util/segment_fetcher.py:SegmentFetcher"]}
{"id": "C33", "title": "PSync segment publisher", "statement": "The segments published for a buffer concatenate to it and the final block id names the last published segment. False when the size is a positive multiple of the segment size.", "quantifier": "all buffers", "why_tests_cant": "all lengths", "anchors": ["python/pyndn/sync/detail/psync_segment_publisher.py:PSyncSegmentPublisher.publish"]}
{"id": "C34", "title": "Digest tree convergence", "statement": "DigestTree.update keeps nodes sorted and unique, sequence numbers never decrease, and two trees that received the same sets of updates in any order have equal roots.", "quantifier": "all update histories and permutations", "why_tests_cant": "all permutations of unbounded histories", "anchors": ["python/pyndn/sync/digest_tree.py:DigestTree"]}
{"id": "C35", "title": "Invertible Bloom lookup table", "statement": "insert and erase commute and cancel; the difference of two tables depends only on the symmetric difference of the key sets; when listEntries succeeds it returns exactly the symmetric difference (for distinct checksums); encode/initialize round-trips for non-negative counts.", "quantifier": "all key multisets and operation orders", "why_tests_cant": "unbounded histories; probabilistic structure", "anchors": ["python/pyndn/sync/detail/invertible_bloom_lookup_table.py:InvertibleBloomLookupTable"]}
{"id": "C36", "title": "PSync producer state", "statement": "Updating a prefix sequence number keeps the prefix map and the IBLT in step (each prefix with its latest non-zero sequence number is exactly once in the IBLT) and never lowers a sequence number.", "quantifier": "all histories of publish/update", "why_tests_cant": "unbounded histories", "anchors": ["python/pyndn/sync/psync_producer_base.py:PSyncProducerBase", "python/pyndn/sync/full_psync2017.py"]}
{"id": "C37", "title": "Interval algebra", "statement": "Interval.intersectWith / unionWith / covers compute set intersection, (overlapping) union and membership of half-open time intervals.", "quantifier": "all intervals and time points", "why_tests_cant": "all reals/integers", "anchors": ["python/pyndn/encrypt/interval.py:Interval"]}
{"id": "C38", "title": "Repetitive interval membership", "statement": "RepetitiveInterval.getInterval reports a positive interval containing the time point exactly when the time point lies in one of the repeated daily intervals, and otherwise a negative interval disjoint from them. (Fails at the exact closing hour.)", "quantifier": "all repetitive intervals and time points", "why_tests_cant": "unbounded calendar", "anchors": ["python/pyndn/encrypt/repetitive_interval.py:RepetitiveInterval.getInterval"]}
{"id": "C39", "title": "Schedule access control", "statement": "Schedule.getCoveringInterval returns a positive interval containing t iff t is in the union of the white intervals and in no black interval. (Fails with an exception at the touching point of adjacent white intervals.)", "quantifier": "all schedules and time points", "why_tests_cant": "unbounded sets of intervals", "anchors": ["python/pyndn/encrypt/schedule.py:Schedule.getCoveringInterval"]}
{"id": "C40", "title": "Calendar arithmetic and ISO strings", "statement": "Schedule.toIsoString/fromIsoString round-trip for whole seconds in years 1000..9999, and lexicographic order of the strings agrees with time order.", "quantifier": "all timestamps", "why_tests_cant": "10^11 values", "anchors": ["python/pyndn/encrypt/schedule.py:Schedule.toIsoString,fromIsoString"]}
{"id": "C41", "title": "Certificate cache", "statement": "CertificateCacheV2 never returns a certificate past its removal time (after refresh), find returns the first certificate in canonical order at or after the prefix that the prefix matches, deleteCertificate removes exactly the named one.", "quantifier": "all histories of insert/find/delete/time", "why_tests_cant": "unbounded histories", "anchors": ["python/pyndn/security/v2/certificate_cache_v2.py:CertificateCacheV2"]}
{"id": "C42", "title": "Validator soundness", "statement": "If the success callback is called for a packet then there is a chain of certificates, each verifying the previous with its public key, from the packet to a trusted certificate, of length at most maxDepth and without repeated names, and the policy accepted every step; success and failure callbacks are mutually exclusive and called at most once.", "quantifier": "all certificate graphs, policies, and fetch results", "why_tests_cant": "unbounded chains and adversarial fetch replies", "anchors": ["python/pyndn/security/v2/validator.py:Validator", "python/pyndn/security/v2/validation_state.py:ValidationState"]}
{"id": "C43", "title": "Command interest replay protection", "statement": "Validated sequentially, a signed command interest is accepted only if its timestamp is greater than that of every earlier accepted interest with the same key still recorded and within the grace period on first use; concurrent in-flight validation breaks this.", "quantifier": "all histories of command interests and clock values", "why_tests_cant": "unbounded histories", "anchors": ["python/pyndn/security/v2/validation_policy_command_interest.py:ValidationPolicyCommandInterest"]}
{"id": "C44", "title": "Validity period", "statement": "setPeriod rounds notBefore up and notAfter down to whole seconds, and isValid(t) holds iff notBefore <= t <= notAfter; encode/decode restores the rounded period.", "quantifier": "all periods and times", "why_tests_cant": "all times", "anchors": ["python/pyndn/security/validity_period.py:ValidityPeriod"]}
{"id": "C45", "title": "Blob is an immutable value and a faithful text carrier", "statement": "Blob(text).toBytes is the UTF-8 encoding and str(Blob(text)) restores the text, distinct texts give distinct bytes, malformed UTF-8 raises a decode error instead of returning wrong text; equals, compare and hash agree with byte equality and lexicographic order; toHex is lower-case hex of every byte.", "quantifier": "all Unicode texts, all byte strings", "why_tests_cant": "all byte sequences", "anchors": ["python/pyndn/util/blob.py:Blob"]}
{"id": "C46", "title": "ControlParameters equality", "statement": "ControlParameters.equals returns True exactly when all fields are equal.", "quantifier": "all pairs of ControlParameters", "why_tests_cant": "all pairs; the comparison of the flags object is by identity", "anchors": ["python/pyndn/control_parameters.py:ControlParameters.equals"]}
{"id": "C47", "title": "SignatureInfo and SignatureValue round trip", "statement": "encodeSignatureInfo and encodeSignatureValue followed by decodeSignatureInfoAndValue restore every field of the signature (type, key locator, validity period, bits); on arbitrary bytes the decoder returns a signature or raises a decoding error.", "quantifier": "all signatures of each supported kind; all byte strings", "why_tests_cant": "unbounded field values and arbitrary input bytes", "anchors": ["python/pyndn/encoding/tlv_0_2_wire_format.py:encodeSignatureInfo", "python/pyndn/encoding/tlv_0_2_wire_format.py:encodeSignatureValue", "python/pyndn/encoding/tlv_0_2_wire_format.py:decodeSignatureInfoAndValue"]}
{"id": "C48", "title": "Schedule wire format", "statement": "Schedule.wireEncode writes the documented nesting, wireDecode of it gives a schedule with the same white and black intervals and the same access decision at every time; arbitrary bytes give a schedule or a decoding error.", "quantifier": "all schedules built from any additions; all times; all byte strings", "why_tests_cant": "unbounded sets of intervals and arbitrary bytes", "anchors": ["python/pyndn/encrypt/schedule.py:Schedule.wireEncode", "python/pyndn/encrypt/schedule.py:Schedule.wireDecode"]}
{"id": "C49", "title": "PSyncState wire format", "statement": "wireEncode writes the names in order inside one PSyncContent element, wireDecode restores the list, bytes after the element are refused, and arbitrary bytes give a list of names or a decoding error.", "quantifier": "all lists of names; all byte strings", "why_tests_cant": "unbounded lists and arbitrary bytes", "anchors": ["python/pyndn/sync/detail/psync_state.py:PSyncState"]}
{"id": "C50", "title": "In-memory retaining storage", "statement": "After any history of insert and remove, the storage holds exactly the packets inserted and not since replaced or removed by a prefix; find returns a stored packet under the name, the one whose full name has been stored longest, and nothing only when nothing matches; size counts distinct full names.", "quantifier": "all histories of insert and remove, all names asked", "why_tests_cant": "unbounded histories", "anchors": ["python/pyndn/in_memory_storage/in_memory_storage_retaining.py:InMemoryStorageRetaining"]}
{"id": "C51", "title": "Trust anchor container", "statement": "After any history of insert, remove, clear and find on static and directory groups, only well-formed certificates given since the last clear are anchors, at most one for each name; a static anchor stays until it is removed, cleared or replaced; find returns the least matching anchor under the asked name and nothing only when nothing matches; a directory group has the certificate names of the directory at its last reading, which is made when the refresh period is over.", "quantifier": "all histories of calls, all directory contents, all clock values", "why_tests_cant": "unbounded histories and directory contents", "anchors": ["python/pyndn/security/v2/trust_anchor_container.py:TrustAnchorContainer", "python/pyndn/security/v2/dynamic_trust_anchor_group.py:DynamicTrustAnchorGroup", "python/pyndn/security/v2/static_trust_anchor_group.py:StaticTrustAnchorGroup"]}
{"id": "C52", "title": "Command interest timestamps", "statement": "The timestamps put in command Interests by one CommandInterestPreparer strictly increase whatever the clock does, equal the rounded clock or the last one plus one, run ahead of a monotone clock by no more than the number of commands, and the commands of one signer checked in order by ValidationPolicyCommandInterest within its grace period are all accepted.", "quantifier": "all clock readings, all sequences of calls", "why_tests_cant": "unbounded sequences and arbitrary clocks", "anchors": ["python/pyndn/security/command_interest_preparer.py:CommandInterestPreparer", "python/pyndn/security/command_interest_signer.py:CommandInterestSigner", "python/pyndn/security/v2/validation_policy_command_interest.py:ValidationPolicyCommandInterest"]}
{"id": "C53", "title": "Names of keys and certificates", "statement": "CertificateV2.isValidName holds exactly for names /<identity>/KEY/<key id>/<issuer>/<version>, the extractors return these parts and raise ValueError for every other name; PibKey.constructKeyName, isValidKeyName and extractIdentityFromKeyName are inverse to each other for a non-empty identity (not for the empty one, although such a certificate name is valid); CertificateV2 accepts exactly the Data with such a name, the type KEY, a freshness period and content.", "quantifier": "all names, all Data packets", "why_tests_cant": "unbounded names", "anchors": ["python/pyndn/security/v2/certificate_v2.py:CertificateV2", "python/pyndn/security/pib/pib_key.py:PibKey"]}
{"id": "C54", "title": "Simple hierarchy policy", "statement": "Whatever the history of validations, fetches, anchors and cache operations, a Validator with ValidationPolicySimpleHierarchy accepts a packet only if a chain of verified signatures leads from a trust anchor (or a certificate put into the verified cache) to it, each certificate name beginning with the key locator used and each signed name beginning with that key locator without two components; if all key locators are key names and no identity has a component KEY, the identity of the root is a prefix of the packet name. Without these conditions a root can sign names outside its identity.", "quantifier": "all histories, all answers of the network, all policies of certificates", "why_tests_cant": "unbounded histories and chains", "anchors": ["python/pyndn/security/v2/validation_policy_simple_hierarchy.py:ValidationPolicySimpleHierarchy", "python/pyndn/security/v2/validator.py:Validator"]}
{"id": "C55", "title": "PibMemory", "statement": "After any history of PibMemory calls whose names fit together (key names of their identity, certificate names of their key), every query gives what the history says: added and not removed since, the defaults as first added or last set; no default, key or certificate dangles; removing an identity or a key removes what is under it and nothing else; ill-named removals raise ValueError and change nothing. Four documented expectations are refuted: removing an absent key forgets the default key, a certificate of the empty identity makes every removeIdentity raise, a foreign default key can dangle, adding a certificate replaces the key bits.", "quantifier": "all histories of calls, all iteration orders of sets", "why_tests_cant": "unbounded histories", "anchors": ["python/pyndn/security/pib/pib_memory.py:PibMemory"]}
{"id": "C56", "title": "NDN regular expressions match what they say", "statement": "NdnRegexTopMatcher takes exactly the texts of the grammar (components <re>, sets [..] and [^..], groups (..), repetitions ?, *, +, {a}, {a,}, {,b}, {a,b}, anchors ^ and $) and raises its Error (IndexError only for \"\" and \"$\", or the error of re) for every other; match returns True only for names which the expression describes, whatever was matched with the object before, and for all of them if no repeated group matches the empty name. A component expression is searched for, it does not have to match the whole component; a repeated group which may be empty can miss matches.", "quantifier": "all texts, all names, all earlier matches, all regular expression engines for components", "why_tests_cant": "unbounded texts, names and histories", "anchors": ["python/pyndn/util/regex/ndn_regex_top_matcher.py:NdnRegexTopMatcher", "python/pyndn/util/regex/ndn_regex_pattern_list_matcher.py", "python/pyndn/util/regex/ndn_regex_repeat_matcher.py", "python/pyndn/util/regex/ndn_regex_component_set_matcher.py", "python/pyndn/util/regex/ndn_regex_component_matcher.py", "python/pyndn/util/regex/ndn_regex_matcher_base.py"]}
{"id": "C57", "title": "Back references and expansion", "statement": "After a successful match, \\0 is the whole name, \\i is what the i-th group (or group in a component expression), counted from the left, matched in its last repetition for one way of matching the expression, for every group that took part; larger numbers raise Error; expand(text) is the concatenation of the values of its pieces \\i and <text>. Two expectations are refuted: a group that did not take part may show components of an abandoned attempt, and an expansion text that ends in <text> always raises.", "quantifier": "all texts, names, earlier matches and expansion texts", "why_tests_cant": "unbounded texts, names and histories", "anchors": ["python/pyndn/util/regex/ndn_regex_top_matcher.py:NdnRegexTopMatcher.expand", "python/pyndn/util/regex/ndn_regex_backref_matcher.py", "python/pyndn/util/regex/ndn_regex_backref_manager.py", "python/pyndn/util/regex/ndn_regex_pseudo_matcher.py"]}
{"id": "C58", "title": "Expression of a name, InterestFilter", "statement": "NdnRegexTopMatcher.fromName(n, hasAnchor) never raises and matches exactly the names whose first components contain, one by one, the texts of the components of n (with the anchor: and no more components), so n and without the anchor every name below it, but not only these; InterestFilter(prefix).doesMatch(n) holds iff prefix is a prefix of n; InterestFilter(prefix, regex).doesMatch(n) iff moreover the rest of n as a whole matches regex, with or without its anchors.", "quantifier": "all names, prefixes and regular expressions", "why_tests_cant": "unbounded names and texts", "anchors": ["python/pyndn/util/regex/ndn_regex_top_matcher.py:NdnRegexTopMatcher.fromName", "python/pyndn/interest_filter.py:InterestFilter"]}
{"id": "C59", "title": "DER round trip", "statement": "The DER nodes made for any tree of booleans, non-negative integers, bit strings, octet strings, nulls, object identifiers, printable strings, times and sequences encode to its X.690 DER encoding and getSize() is its length; DerNode.parse of a DER encoding anywhere in a buffer gives nodes that show the same value, know its length and encode to the same bytes; no encoding is a prefix of another; every other buffer gives nodes, an IndexError or a DER exception. Buffers that are not DER can be accepted: a payload cut short, a child longer than its sequence, a non-minimal length (the siblings are then misread), the indefinite length.", "quantifier": "all values, all buffers and offsets", "why_tests_cant": "unbounded values and buffers", "anchors": ["python/pyndn/encoding/der/der_node.py:DerNode.parse", "python/pyndn/encoding/der/der_node.py:DerNode"]}
{"id": "C60", "title": "Updates of a DER tree", "statement": "After any history of addChild with notification (or at the root), getSize() and encode() calls at any nodes of a built or parsed tree, the root shows the updated value, encodes to its DER encoding and getSize() is its length. Without notification, the default, a child added two levels below the root after an encode leads to bytes that are no DER.", "quantifier": "all trees, all histories of updates", "why_tests_cant": "unbounded trees and histories", "anchors": ["python/pyndn/encoding/der/der_node.py:DerNode.DerStructure"]}
{"id": "C61", "title": "DER object identifiers and times", "statement": "DerOid of an identifier with first part at most 2, second part at most 39 and any further parts is read back by toVal, other first parts raise; DerGeneralizedTime of a time in the years 1000 to 9999 is read back without the fraction of its second. Refuted: identifiers with one part or a negative part are accepted but read back as something else; 2.100.3 is read as 4.20.3; two equal OID objects are never ==.", "quantifier": "all identifiers, all times", "why_tests_cant": "unbounded numbers and all times", "anchors": ["python/pyndn/encoding/der/der_node.py:DerNode.DerOid", "python/pyndn/encoding/der/der_node.py:DerNode.DerGeneralizedTime", "python/pyndn/encoding/oid.py:OID"]}
{"id": "C62", "title": "Configuration files say what they look like they say", "statement": "Reading a text in the INFO format gives exactly the entries and nested sections laid out in it, in their order, whatever the indentation, blank lines, comments, quoting, escapes, line ends and the place of the opening brace; an #include line reads as the contents of the file; a lookup by a slash-separated path finds exactly the subtrees reached by these names; writing a tree whose names and values have no special characters and reading the text again gives the same tree; reading any text terminates and raises only AttributeError, RuntimeError, TypeError or the error of opening a file.", "quantifier": "all trees, all layouts of them as lines, all texts, all lookup paths, all contents of the files included", "why_tests_cant": "the layouts, the trees and the paths are unbounded; a few configuration files show nothing about the others", "anchors": ["python/pyndn/util/boost_info_parser.py: shlex_split, BoostInfoTree, BoostInfoParser"]}
{"id": "C63", "title": "A validator configuration decides as its text says", "statement": "After ValidationPolicyConfig.load of a configuration, and whatever packets were checked before: unless a trust anchor has the type \"any\" (then every packet is accepted without a certificate), a packet without a key locator name is refused; otherwise the first rule for its kind (data or interest) of which a filter matches its name (an Interest without its two signature components) decides, and without one it is refused. The certificate of the key locator is asked for if all checkers of that rule pass, the packet is refused if one refuses, and ValueError is raised by a name-relation checker whose key locator is not a key name. The relations equal, is-prefix-of and is-strict-prefix-of, regular expressions, hyper-relations with expansion of back references and the hierarchical checker have the meaning stated. For checkers whose expansion is unambiguous the answer does not depend on the packets before. (Witnesses: a component that only contains KEY is taken for KEY; the exception; stale back references.)", "quantifier": "all configurations, all histories of loads and checks, all packets", "why_tests_cant": "configurations, packets and the results kept from earlier matches are unbounded", "anchors": ["python/pyndn/security/v2/validator_config/config_filter.py", "python/pyndn/security/v2/validator_config/config_checker.py", "python/pyndn/security/v2/validator_config/config_rule.py", "python/pyndn/security/v2/validator_config/config_name_relation.py", "python/pyndn/security/v2/validation_policy_config.py: checkPolicy"]}
{"id": "C64", "title": "Loading a validator configuration", "statement": "load succeeds exactly if the tree has one section \"validator\" whose rules and trust anchors can be read (required keys, known types and relations, valid expressions) and every trust anchor can be loaded; the trust anchors are then loaded in order, with the refresh periods as written (s, m, h; never without one; one hour for anything else). A load after another starts from nothing: trust anchors and verified certificates are reset and the result is that of a first load. Every exception is a ValidatorConfigError or comes from Name(uri), base64 or loadAnchor. (Witness: a load that raises leaves part of the configuration, possibly \"trust everything\".)", "quantifier": "all property trees, all histories of loads and checks, all behaviours of the file system and decoders", "why_tests_cant": "trees and histories are unbounded", "anchors": ["python/pyndn/security/v2/validation_policy_config.py: load, _processConfigTrustAnchor, _getRefreshPeriod", "python/pyndn/security/v2/validator_config/config_rule.py: create", "python/pyndn/security/v2/validator_config/config_checker.py: create", "python/pyndn/security/v2/validator_config/config_filter.py: create"]}
{"id": "C65", "title": "A Validator with a configuration accepts only chains it allows", "statement": "With a loaded configuration that has no trust anchor of the type \"any\", every packet for which the success callback is called has a chain of certificates from a trust anchor (or a certificate the user declared verified): each signature verifies, each key locator names the certificate before it, and a rule of the configuration allows each packet and certificate its key locator. If every rule has the hierarchical checker, the identity of the root is a prefix of the name of the packet in a well-formed deployment.", "quantifier": "all configurations, all histories of validations, answers and anchor operations", "why_tests_cant": "chains and schedules are unbounded", "anchors": ["python/pyndn/security/v2/validation_policy_config.py", "python/pyndn/security/v2/validator.py"]}
{"id": "C66", "title": "Pib, PibIdentity and PibKey answer what was stored", "statement": "For every history of calls on a Pib, on the PibIdentity objects it returned and on the PibKey objects they returned (live handles, each key added once, certificates that carry the bits of their key), every call answers what the history determines: an identity, key or certificate that was added and not removed is found under its name with its bits, one that is not there gives Pib.Error, a key name of another identity or a certificate name of another key gives ValueError, defaults are the ones set last or else the first added. The default key an identity answers belongs to it and exists; as long as no key was removed it is the default of the back end. isConsistent holds for every container. (Witnesses show what happens otherwise: a stale default key after the removal of another key, stale bits or default certificate after a replacement, an inconsistent container after a key that cannot be decoded, handles of removed identities, setTpmLocator which does not reset the PIB as documented, getKeyNames which omits keys not loaded yet.)", "quantifier": "all histories of calls, all back ends used sanely before, all handles", "why_tests_cant": "histories and the number of cached objects are unbounded; every interleaving of calls on different handles matters", "anchors": ["python/pyndn/security/pib/pib.py", "python/pyndn/security/pib/pib_identity.py", "python/pyndn/security/pib/pib_key.py", "python/pyndn/security/pib/detail/pib_identity_impl.py", "python/pyndn/security/pib/detail/pib_key_impl.py", "python/pyndn/security/pib/pib_identity_container.py", "python/pyndn/security/pib/pib_key_container.py", "python/pyndn/security/pib/pib_certificate_container.py"]}
{"id": "C67", "title": "KeyChain keeps the PIB and the TPM in step", "statement": "After every history of KeyChain calls (create and delete identities, keys and certificates, sign, self-sign, import and export, set defaults) every key in the PIB has a private key in the TPM that belongs to it: the public key accepts what the private key signs. If PIB and TPM were empty at first, every private key in the TPM has its public key in the PIB. deleteKey removes both halves, or refuses a key of another identity with ValueError and changes nothing; deleteIdentity removes the identity and every key of it from the PIB, and from the TPM too if both were empty at first. (Witnesses: deleteIdentity of an identity loaded from an existing PIB leaves private keys in the TPM; an identity with the empty name leaves a private key without a public one.)", "quantifier": "all histories of calls with live handles, all initial PIBs and TPMs that are coherent, all random key ids, all clocks, any cryptography whose keys verify what they sign", "why_tests_cant": "histories are unbounded; a failure in the middle of createKey, importSafeBag or deleteIdentity must not leave one half", "anchors": ["python/pyndn/security/key_chain.py", "python/pyndn/security/tpm/tpm.py", "python/pyndn/security/tpm/tpm_back_end.py", "python/pyndn/security/tpm/tpm_back_end_memory.py", "python/pyndn/security/pib/pib.py", "python/pyndn/security/signing_info.py"]}
{"id": "C68", "title": "KeyChain.sign signs with the key the SigningInfo denotes", "statement": "For every SigningInfo exactly one signer is determined: the digest, the default key of the default or given identity, the given key, or the key of the given certificate; no signer gives the documented error. Signing a Data, an Interest or a buffer uses exactly this signer: the signature is made over the signed portion of the encoding of the packet that is returned (with the key locator and validity period in it) with the private key that the TPM has under the name of the signer, the public key in the PIB accepts it, nothing else in the packet changes, and neither the stored keys nor the defaults change. (Witnesses: signing with the name of a certificate that does not exist succeeds; with a private key missing from the TPM the packet comes back without a signature and without an error.)", "quantifier": "all packets that can be encoded, all SigningInfo, all histories before", "why_tests_cant": "the packet, the key names, the history and the randomness range over unbounded sets; the signed bytes must agree with the bytes sent for all of them", "anchors": ["python/pyndn/security/key_chain.py", "python/pyndn/security/tpm/tpm.py", "python/pyndn/security/tpm/tpm_back_end.py", "python/pyndn/security/tpm/tpm_back_end_memory.py", "python/pyndn/security/pib/pib.py", "python/pyndn/security/signing_info.py"]}
{"id": "C69", "title": "KeyChain creates, certifies and moves keys", "statement": "createIdentityV2 of an identity without a default key, and createKey, make a new key under an unused name (the given id, the hash of the public key, or the first unused random id), put its two halves in the PIB and the TPM, and give it a default certificate that passes the format check of certificates, carries the public key, and is signed by the key itself over its own encoding; an earlier default key stays; an identity that already has a default key and certificate is left alone. selfSign adds such a certificate; it is valid from the first whole second not before now until twenty years later. A key exported with exportSafeBag from one KeyChain and imported in another that does not have it is there with the same public key, private key and certificate; an import that fails leaves the keys as they were. (Witnesses: createIdentityV2 raises TypeError when the default key has no default certificate; a self-signed certificate is not yet valid at its creation when the clock is not at a whole second.)", "quantifier": "all histories, all identity names, key parameters, clocks, random ids, passwords", "why_tests_cant": "the random ids, the histories and the names are unbounded; the certificate must satisfy the checks in every reachable state", "anchors": ["python/pyndn/security/key_chain.py", "python/pyndn/security/tpm/tpm.py", "python/pyndn/security/tpm/tpm_back_end.py", "python/pyndn/security/tpm/tpm_back_end_memory.py", "python/pyndn/security/pib/pib.py", "python/pyndn/security/signing_info.py"]}
{"id": "C70", "title": "SigningInfo and its string form", "statement": "Every SigningInfo whose name has a URI that can be read back (C12) has a string form, and reading the string gives a SigningInfo with the same signer kind and name (the digest identity as a name reads as the digest signer); two SigningInfo with the same string denote the same signer kind and name. In every reachable KeyChain the SigningInfo read back from the string selects the same signer as the original. The empty string means the default; a string without a colon, or with another scheme than id, key or cert, raises ValueError. After any sequence of setter calls, the signer is the one chosen last. (Witness: two URIs of the same name can denote different signers, because only one spelling of the digest identity is recognised.)", "quantifier": "all SigningInfo, all names, all strings, all sequences of setter calls, all KeyChain histories", "why_tests_cant": "names and strings are unbounded; the agreement of the two SigningInfo must hold in every state of the KeyChain", "anchors": ["python/pyndn/security/signing_info.py", "python/pyndn/security/key_chain.py"]}
{"id": "C71", "title": "TpmPrivateKey reads and writes PKCS #8", "statement": "loadPkcs8 of any DER PrivateKeyInfo takes the key type from the algorithm identifier: EC, RSA, or else the documented error, whatever other fields are there; its only errors are the documented one and those of the cryptography package. toPkcs1 gives the inner private key. toEncryptedPkcs8 writes a DER EncryptedPrivateKeyInfo (PBES2, PBKDF2 with 2048 iterations, DES-EDE3-CBC) with the salt and the initial vector it drew, and loadEncryptedPkcs8 with the same password gives the same key back, whatever bytes follow. Any such encoding made elsewhere, with any iteration count and padding, is decrypted to the key in it; the optional PBKDF2 parameters are ignored. (Witnesses: an explicit key type is not compared with the algorithm in the encoding; a wrong structure can raise TypeError instead of the documented error.)", "quantifier": "all keys, DER encodings, passwords, salts, initial vectors, iteration counts", "why_tests_cant": "keys, passwords and encodings are unbounded byte strings with nested lengths", "anchors": ["python/pyndn/security/tpm/tpm_private_key.py", "python/pyndn/encoding/der/der_node.py"]}
{"id": "C72", "title": "SafeBag carries a key between KeyChains", "statement": "The encoding of a SafeBag decodes to the same certificate and private key bag, whatever bytes follow; no two bags have the same encoding. Decoding any bytes gives a bag, whose certificate is what its own bytes in the bag decode to, or one of the two documented exceptions. SafeBag(keyName, privateKeyBag, publicKeyEncoding, password) makes a certificate of the key that carries the public key, is signed with the private key over its own encoding and passes the certificate format check. A key exported from one KeyChain, or made into such a bag, and encoded, decoded and imported into another KeyChain that does not have it, is there with the same public and private key. (Witness: the constructor does not check that the public key belongs to the private key.)", "quantifier": "all certificates that can be encoded, all key bags, all byte strings, all KeyChain histories, passwords, clocks, randomness", "why_tests_cant": "the packets, keys and histories are unbounded; decoding must be safe on every byte string", "anchors": ["python/pyndn/security/safe_bag.py", "python/pyndn/security/key_chain.py", "python/pyndn/security/tpm/tpm.py", "python/pyndn/encoding/tlv/tlv_decoder.py"]}
{"id": "C73", "title": "DecryptorV2: every decrypt call is answered at most once, all requests of a CK together", "statement": "In every history of decrypt calls, received Data, timeouts, Nacks and shutdowns: each request has at most one answer, only requests are answered, a request without a key locator name or initial vector is refused at once; while an Interest for a CK is out none of its requests is answered, and the first request of a CK either is answered or its Interest is out; if one request of a CK succeeds all its requests are answered; shutdown leaves no Interest and answers the requests of every CK that was being fetched; at most six Interests are sent per CK. If a request has no answer and nothing is out for its CK, the first request of the CK failed, and then that request and all later requests for the CK are never answered. (Witness: so it is false that every request is answered in the end, even by shutdown.)", "quantifier": "all histories of calls and network events with unique request and Interest ids, any KeyChain content, any cryptography", "why_tests_cant": "histories and interleavings of requests, answers, timeouts and shutdowns are unbounded", "anchors": ["python/pyndn/encrypt/decryptor_v2.py"]}
{"id": "C74", "title": "DecryptorV2 answers with what the received keys decrypt", "statement": "A success carries the AES decryption, unpadded, of the payload of the request with CK bits that a received CK Data carries, encrypted for the KDK that the name of that Data tells (ck/ENCRYPTED-BY/identity/KEK/id, KDK identity/KEY/id); that KDK comes from a received SafeBag by the secret that the key of the consumer decrypts. All successes of a CK use the same bits. Every Interest sent has a reason: the CK of a request, or the KDK that a received CK Data of such a CK names, encrypted by the credentials key. Padding is removed exactly. (Witness: two CKs that need the same KDK at the same time: the second is given up with a decryption failure though all it needs was received, because the KDK is imported twice.)", "quantifier": "all histories of calls and network events, any received packets, any cryptography", "why_tests_cant": "the received packets and histories are unbounded and chosen by the network", "anchors": ["python/pyndn/encrypt/decryptor_v2.py", "python/pyndn/encrypt/algo/aes_algorithm.py", "python/pyndn/encrypt/encrypted_content.py", "python/pyndn/security/tpm/tpm.py"]}
{"id": "C75", "title": "EncryptorV2: content keys are published, served and found", "statement": "In every history of regenerateCk, encrypt, KEK Data, timeouts, Nacks, timer calls and shutdown: encrypt returns the AES-CBC encryption of the padded text with the bits of the CK generated last, and the name of that CK. When a KEK Data satisfies an Interest, the CK of that time is published, encrypted with that KEK under ck/ENCRYPTED-BY/kek, and so is every CK generated later, or the user is told of an encryption failure, which only happens if the encryption or the signing fails. If no two CKs were generated in the same millisecond, an Interest for a published CK is served for ever, by a Data with the bits of that CK, encrypted with a KEK that was received; nothing else is served. At most one Interest for the KEK is out, at most three are sent per regenerateCk or timer call, and all have the name accessPrefix/KEK. Without shutdown and errors of expressInterest it never gives up: a KEK was received or an Interest is out or a timer call is waiting. (Witnesses: two CKs of the same millisecond have the same name and the wrong one is served; a CK replaced before the KEK comes is never published; a delayed call sends an Interest after shutdown.)", "quantifier": "all histories of calls and network and timer events, any clocks, bits, KEK packets; any RSA, AES and signing functions that may fail", "why_tests_cant": "histories and interleavings of calls, answers and timers are unbounded", "anchors": ["python/pyndn/encrypt/encryptor_v2.py", "python/pyndn/in_memory_storage/in_memory_storage_retaining.py", "python/pyndn/security/key_chain.py"]}
{"id": "C76", "title": "AccessManagerV2 and the whole flow of name-based access control", "statement": "In every reachable KeyChain: the AccessManagerV2 constructor makes the key identity/NAC/dataset/KEY/id, and serves exactly its KEK Data, identity/NAC/dataset/KEK/id with the public key, signed with the default key of the identity; addMember returns and stores the KDK Data .../KDK/id/ENCRYPTED-BY/member-key with the private key under a fresh secret, and the secret encrypted with the key of the member; keys, certificates and defaults of the KeyChain are unchanged and what was served is served. If the producer published its CK with that KEK and encrypts, and the member, who does not have the keys yet, calls decrypt and is answered with those packets, then exactly two Interests are sent, with the names under which those packets are found, and exactly one answer given: the original text. (Witness: the secret of the KDK can have zero bytes, although the code tries to avoid them.)", "quantifier": "all KeyChain histories, names, datasets, keys, random values, plain texts, encryptor histories and decryptor states; any cryptography with the RSA, AES and export laws", "why_tests_cant": "the flow crosses three programs with unbounded histories; all bytes of all packets matter", "anchors": ["python/pyndn/encrypt/access_manager_v2.py", "python/pyndn/encrypt/encryptor_v2.py", "python/pyndn/encrypt/decryptor_v2.py", "python/pyndn/security/key_chain.py", "python/pyndn/security/safe_bag.py"]}
{"id": "C77", "title": "PibSqlite3: what the file shows, with several processes, failures and crashes", "statement": "After any history of calls, every answer of PibSqlite3 (identities, keys, certificates, defaults, lists) is the one the history determines, and a call raises exactly if it makes an absent key or certificate the default. However the statements of several processes on one file are interleaved, fail and break off: no query fails, the answers fit together (a default exists and belongs to its owner, every key has its identity and every certificate its key, lists have no duplicates and agree with has...), and there is at most one default per owner. If a process ends inside a call, each answer is the old or the new one; making the call again gives the state as if it had succeeded. The TPM locator is the last one set. (Witnesses: PibMemory forgets the default key when another key is removed, PibSqlite3 does not; after an empty locator later ones are not seen; two processes adding the same identity at once: one raises.)", "quantifier": "all histories, names, keys and certificates that can be encoded; all interleavings of the SQL statements of any number of processes, all failure and crash points", "why_tests_cant": "the interleavings and crash points between statements are unbounded, and so are the histories", "anchors": ["python/pyndn/security/pib/pib_sqlite3.py", "python/pyndn/security/pib/pib_impl.py", "python/pyndn/security/v2/certificate_v2.py"]}
{"id": "C78", "title": "ChronoSync2013: what a node knows, and that nodes converge", "statement": "After any history of Interests, Data, timeouts and calls (also calls made inside callbacks, and failing signatures): the number reported for another producer is the highest one received for it, none goes back, the list of producers is exactly those with a number, and two objects that know the same have the same root digest. While nothing raises and shutdown is not called there is always an outstanding Interest for the current root digest; after shutdown nothing is done. An Interest for the digest of any earlier state is answered with a message that has every prefix that changed since and no number above what is known; a recovery Interest with exactly all that is known; the receiver then knows the maximum of both, and two nodes that have answered each other are in the same state. In a group whose prefixes differ, with messages delivered in any order, any number of times or never, no node knows a number above the one its producer has given itself; the numbers of a node never go back, and each successful publishNextSequenceNo takes the next one and announces it under the digest of the state before. A newcomer learns the whole message, takes the number 0 and announces it. (Witnesses: a state of the own prefix with another session takes the own number back; of two sessions of a prefix only the last is replied; Data that cannot be decoded ends the asking; a failed signing uses up a number.)", "quantifier": "all histories and schedules of events at one node, at two, and at any group of nodes; all messages; all hash functions (where digests must differ, no collision among the states up to the present one is assumed)", "why_tests_cant": "convergence and monotonicity range over all schedules, reorderings, duplications and losses", "anchors": ["python/pyndn/sync/chrono_sync2013.py", "python/pyndn/sync/digest_tree.py"]}
{"id": "C79", "title": "TpmBackEndFile is a map from names to keys, and what failures and crashes can do to it", "statement": "base64Encode, with or without lines of 64 characters, is read back to the same bytes. After any history of createKey, deleteKey and importKey (also over several processes), hasKey, getKeyHandle and exportKey answer for every name as the map from names to keys that the history determines; createKey takes the name asked for, the one made of the SHA-256 of the public key, or the first free random one, and is refused exactly if there is none; importKey is refused for a name that has a key; a key that is exported and imported, with a password or without, is the same key. If operations on files fail, or the process ends at any point of a call: a call that reports success has done all of it; every other name is as before; the own name is as before, or has the key of the call, or has no key; a key found under a name is always one that was made or imported for this name; importKey, and createKey with a given or random name, never replace a key that is there; and after deleteKey a name can be used again, whatever was left on the disk. (Witnesses: after a crash during a write hasKey raises ValueError; createKey with the SHA-256 of the public key writes over its own key and can lose it in a crash; if a read fails importKey replaces a key.)", "quantifier": "all histories, names, keys, passwords, random numbers, failures of file operations, points at which the process ends and parts of a text that reach the disk; all hash functions (no two names in use have the same hash); all keys that the cryptography package reads back and does not take when cut", "why_tests_cant": "crash points and failures during writes cannot be enumerated by tests", "anchors": ["python/pyndn/security/tpm/tpm_back_end_file.py", "python/pyndn/security/tpm/tpm_back_end.py", "python/pyndn/util/common.py"]}
{"id": "C80", "title": "The group manager gives each E-KEY and D-KEY exactly to the members whose schedule allows the time slot", "statement": "After any history of addSchedule, updateSchedule, deleteSchedule, renameSchedule, addMember, updateMemberSchedule, removeMember, getGroupKey and opening the database again, the database answers (hasSchedule, getSchedule, listAllScheduleNames, hasMember, getMemberSchedule, listAllMembers, getScheduleMembers) as the two maps that the history determines: from names to schedules and from identities to schedule, key name and key; deleting a schedule removes its members, renaming keeps them; and each call succeeds exactly when these maps allow it. getGroupKey for a time slot gives no packet exactly if no schedule allows the slot. Otherwise it gives an E-KEY, named with an interval that contains the slot and in which no schedule changes, that holds the public key of a pair, and then in the order of the key names, for exactly the members whose schedule allows the slot, one D-KEY packet each, named for the member, holding the private key of the same pair encrypted for that member's key (directly or under a fresh AES key); all have the freshness period given; it raises only if generating or encrypting raises, or after the database was opened again. With needRegenerate the pair is a new one; without it, a later request for the same interval gives the same pair. (Witnesses: cleanEKeys always raises and removes nothing; updateMemberSchedule of an identity that is not a member is silently accepted although documented to raise; after the database is opened again, the first request for an interval with a stored E-KEY raises KeyError.)", "quantifier": "all histories of calls, schedules, names, keys, time slots that are not a closing time, orders in which the database lists rows, ciphers, key generators and random choices", "why_tests_cant": "which members a key reaches depends on every earlier call and on all schedules at once; no set of histories and slots covers it", "anchors": ["python/pyndn/encrypt/group_manager.py", "python/pyndn/encrypt/sqlite3_group_manager_db.py", "python/pyndn/encrypt/algo/encryptor.py", "python/pyndn/encrypt/group_manager_db.py"]}
{"id": "C81", "title": "Adding a range to an Exclude filter adds exactly that range", "statement": "For every ordered filter (of components that are neither digests nor empty with another type): after excludeAfter(exclude, c) the filter is ordered again and matches exactly what it matched before and every component from c on; after excludeBefore(exclude, c), for a c that is not excluded yet, exactly what it matched before and everything up to c; after excludeRange(exclude, a, b) all from a to b is matched and what comes before a is matched as before, and unless the filter already excluded all from a through something after b, it matches exactly what it matched before and the range; excludeRange raises exactly for an empty range. (Witnesses: excludeRange inside a range that is already excluded makes the filter match less: the rest of that range is no longer excluded; an empty component of another type is taken for the beginning of all components.)", "quantifier": "all ordered filters, all components", "why_tests_cant": "the filters and the positions of the ends in them are unbounded", "anchors": ["python/pyndn/encrypt/producer.py", "python/pyndn/exclude.py"]}
{"id": "C82", "title": "The producer encrypts each content key for every node, and reports once", "statement": "For every history of calls of createContentKey and produce (from the year 1000 to 9999) and of E-KEY Data, timeouts and Nacks for the Interests it expressed: onEncryptedKeys is called at most once for a call, and only for a call that created the content key of its hour; it then gets a packet for each node /prefix/READ/<beginning of the data type>/E-KEY, except for those with a timeout or a Nack, each holding the content key encrypted under an E-KEY that came in for that node, with the right name. Unless an exception or onError happened (and the data type is not empty), it has been called exactly when no Interest of the call is outstanding. For a call and a node at most one Interest is outstanding; after a timeout the same Interest is expressed again, maxRepeatAttempts times in a row, after the last one or a Nack none; its filter excludes exactly what comes at or after the time slot and up to the start of an E-KEY that came in before. createContentKey returns /prefix/SAMPLE/<type>/C-KEY/<hour>; produce returns the content encrypted under the content key of the hour, and there is only one for each hour. The E-KEY Data is used without being verified: nothing here is said about whose key it is. (Witnesses: an E-KEY that starts exactly at the time slot is excluded; if an encryption fails or the name of an E-KEY is malformed, onEncryptedKeys is never called; nor for an empty data type, nor if the content key is already in the database.)", "quantifier": "all histories, all keys, all data types, all maxRepeatAttempts, all encryption functions, all orders of the answers", "why_tests_cant": "the histories, the number of nodes and the interleaving of the answers are unbounded", "anchors": ["python/pyndn/encrypt/producer.py", "python/pyndn/encrypt/sqlite3_producer_db.py", "python/pyndn/encrypt/producer_db.py"]}
{"id": "C83", "title": "Each consume is answered at most once, and only with what verified packets decrypt to", "statement": "For every history of calls of consume, setGroup, addDecryptionKey and deletions in the database, and of Data, timeouts, Nacks and (possibly late) verifications for the Interests that the consumer expressed: for each consume there is at any time exactly one of an outstanding Interest or verification, one call of onConsumeComplete or onError, or one exception that was only logged. A plaintext given to onConsumeComplete is the verified packet that was asked for, decrypted with a content key; that is a verified C-KEY packet for the key name in the content packet, decrypted with a D-KEY; that is a verified D-KEY packet for this consumer, decrypted in two steps with a key from the database. Each Interest has the name /<key name>/FOR/<group or consumer> of such a packet, and is sent at most twice, the second time after a timeout. An error code always has the matching cause. After a success no Interest is sent for the same content key. addDecryptionKey only stores keys under the consumer name, and never replaces one. (Witnesses: after a malformed second part of a D-KEY packet, or a C-KEY packet without a key name, neither callback is ever called.)", "quantifier": "all histories, all packets, all decryption functions, all verdicts and all orders of the answers", "why_tests_cant": "the histories, the packets and the interleaving of several consumes are unbounded", "anchors": ["python/pyndn/encrypt/consumer.py", "python/pyndn/encrypt/sqlite3_consumer_db.py", "python/pyndn/encrypt/consumer_db.py", "python/pyndn/security/key_chain.py"]}
{"id": "C84", "title": "The consumer gets what the producer published", "statement": "If decryption inverts encryption, and the verified packets are what Producer and GroupManager make (the content under a content key, the content key under an E-KEY in one part, the D-KEY for the member in two parts), and the key of the member is in the database, then each consume whose Interests have been answered is answered exactly once: with the content that was encrypted, or with an error about the network (1036), the verification (1002) or an exception of expressInterest or verifyData (200). (Witnesses: a D-KEY short enough to be encrypted directly is refused with 1033; a content key that is encrypted in two parts is decrypted to the nonce, and onConsumeComplete gets wrong bytes.)", "quantifier": "all histories, all contents, keys and names, all ciphers that invert each other", "why_tests_cant": "the contents, the keys and the histories are unbounded", "anchors": ["python/pyndn/encrypt/consumer.py", "python/pyndn/encrypt/producer.py", "python/pyndn/encrypt/group_manager.py", "python/pyndn/encrypt/algo/encryptor.py"]}
{"id": "C85", "title": "The configured policy manager verifies only what a chain of allowed signatures links to a configured certificate", "statement": "For every history of load, verifyData, verifyInterest (with ConfigPolicyManager), of clock readings, file contents, and of certificates and timeouts that come for its Interests: onVerified is called only for a packet that the application asked about, and only if the configuration in force has a trust anchor of type \"any\", or the first rule that applies to the packet has a first checker that approves the key locator name, which is a prefix of the name of an unexpired certificate whose public key verifies the signature, and that certificate was read from a trust-anchor or fixed-signer section of the configuration in force, or is itself authentic in the same way. A configuration without trust anchors and fixed signers verifies nothing. A packet signed by a trust anchor under a rule that allows it is verified without an Interest until the anchor expires. (Witnesses: the anchor is forgotten after the cache lifetime, then an Interest is sent for it; a directory of trust anchors without \"refresh\" makes load raise IndexError.)", "quantifier": "all configurations, histories, packets, clocks, file systems and signature-checking functions", "why_tests_cant": "the configurations, the chains of certificates and the histories are unbounded", "anchors": ["python/pyndn/security/policy/config_policy_manager.py", "python/pyndn/security/key_chain.py", "python/pyndn/security/policy/policy_manager.py", "python/pyndn/security/v2/certificate_cache_v2.py"]}
{"id": "C86", "title": "Each verification is answered at most once, with a bounded number of Interests, and a command timestamp is accepted once", "statement": "With ConfigPolicyManager, for every history: the callbacks of a call of verifyData/verifyInterest are called at most once in total; a call sends at most 3*(maximum depth + 1) Interests; the call itself raises, or answers, or sends exactly one Interest; an Interest that times out is sent two more times, then onValidationFailed is called. As long as the configuration stays in force and there is room in the table of timestamps, a verified command Interest has a timestamp larger than all verified ones before with the same key. (Witnesses: the call is never answered if a fetched certificate has no validity period, is expired, or if the chain is too deep; a command is verified twice when the table is full; verifyInterest raises after it has called onVerified; a packet with an HMAC signature makes verifyData raise.)", "quantifier": "all configurations, histories, packets and orders of the answers", "why_tests_cant": "the histories and the interleaving of several verifications are unbounded", "anchors": ["python/pyndn/security/policy/config_policy_manager.py", "python/pyndn/security/key_chain.py"]}
{"id": "C87", "title": "Packets between two nodes over a byte stream", "statement": "Whatever packets (Interests, Data, Nacks) one side sends, each passed on as it is or in an LpPacket with header fields, and however the byte stream is cut into chunks: the receiving node processes exactly these packets in order with the same fields and header fields, and raises nothing. An expressed Interest is sent and pending; every matching filter of the other side is called with the same Interest; putData sends the Data packet and onData of every pending Interest it matches is called with the same Data; putNack sends a Nack whose reason arrives and onNetworkNack of every pending equal Interest is called; a Nack over 8800 bytes raises RuntimeError and is not sent. Bytes that do not decode raise only ValueError, RuntimeError, TypeError (LpPacket) or IndexError (empty) and change nothing. (Witness: an LpPacket with no fragment raises TypeError and the packets behind it in the same chunk are lost.)", "quantifier": "all packets, header fields, chunkings, received byte strings, node states and later schedules of callbacks", "why_tests_cant": "Needs every packet and every division of the stream, composed with every state of both nodes.", "anchors": ["python/pyndn/node.py: Node.onReceivedElement, putData, putNack, send, expressInterest, _encodeLpNack, _satisfyPendingInterests, _dispatchInterest", "python/pyndn/encoding/element_reader.py", "python/pyndn/encoding/tlv_0_2_wire_format.py"]}
{"id": "C88", "title": "The prefix registration command and its response", "statement": "registerPrefix sends one command Interest: its name is /localhost/nfd/rib/register (localhop and 4 s lifetime if the host is not local, else 2 s), the ControlParameters, which decode to exactly the asked prefix, flags and origin, the timestamp, the random bytes, the SignatureInfo and the signature; it is a command that names the signing key, and its timestamp is later than that of every earlier command of the face. Without a key chain or certificate name RuntimeError is raised and nothing is sent. The status is the code of the ControlResponse in the Data: with 200 onRegisterSuccess is called and the filter set (neither if the registration was removed before), with another code or no ControlResponse onRegisterFailed is called and no filter is set; over every history each response and each timeout is reported so. (Witness: a response body with a name component of type 1 that is no digest raises RuntimeError in the callback and neither callback is ever called.)", "quantifier": "all prefixes, options, clocks, random bytes, signatures, response contents, node states and histories of operations", "why_tests_cant": "Needs every response and every interleaving of removals, responses and timeouts.", "anchors": ["python/pyndn/node.py: Node.registerPrefix, _nfdRegisterPrefix, _RegisterResponse, makeCommandInterest", "python/pyndn/util/command_interest_generator.py", "python/pyndn/registration_options.py", "python/pyndn/impl/registered_prefix_table.py"]}
{"id": "C89", "title": "Version 1 certificates: content, public key and names", "statement": "Certificate.encode makes the content the DER encoding (X.690) of the validity, the subject descriptions, the public key and the extensions, sets the content type KEY and changes nothing else. Certificate.decode reads exactly these fields from every such content, whatever follows it; a key in DER of a known algorithm is kept byte for byte with its type. So a certificate with ASCII descriptions is read back (times in whole seconds), also over the wire as a Data packet. Whatever bytes the content has, decode raises only DER errors, IndexError, ValueError, TypeError, SecurityException or what the RSA loader raises. IdentityCertificate finds the name of the key for exactly the names with KEY before the last ID-CERT (first KEY removed, the last ID-CERT and what follows cut off), and RuntimeError otherwise; setName refuses names without KEY or ID-CERT and leaves the object unchanged. (Witnesses: a description that is not ASCII comes back changed; decoding twice with one object doubles the descriptions; setName with KEY only behind ID-CERT raises but has set the name.)", "quantifier": "all certificates, times, descriptions, extensions, keys, contents (any bytes), names", "why_tests_cant": "Needs every content and every name; the encodings have no bound on size or number.", "anchors": ["python/pyndn/security/certificate/certificate.py", "python/pyndn/security/certificate/public_key.py", "python/pyndn/security/certificate/identity_certificate.py", "python/pyndn/encoding/der/der_node.py", "python/pyndn/encoding/oid.py"]}
{"id": "C90", "title": "Protobuf messages as NDN-TLV", "statement": "For all Protobuf message types (recursive ones included) of the supported field types: ProtobufTlv.encode raises RuntimeError exactly for messages that are not initialised and otherwise gives the TLV elements of the fields in the order of the type. ProtobufTlv.decode of it updates the given message: repeated fields are extended, single ones replaced, sub-messages updated in place. A reader with older or newer types (new fields at the end, non-critical to the old reader, not required by the new one) gets exactly the shared fields, whatever unknown elements follow. A new message gets back the same message exactly when text is ASCII, bools outside required fields are true and sub-messages of single fields are not empty; so encoding is injective on those. Any bytes decode to a message of the type or raise ValueError or RuntimeError, and decoding ends. A field 7 of \"repeated bytes component = 8\" is encoded as the Name that toName gives. (Witnesses: text outside ASCII changes; false does not replace true; elements out of order are dropped silently; an empty required sub-message makes the result uninitialised.)", "quantifier": "all message types, pairs of versions, messages, messages decoded into, input bytes", "why_tests_cant": "Needs every recursive message type and message; nesting and repetition have no bound, and the decoder meets any bytes.", "anchors": ["python/pyndn/encoding/protobuf_tlv.py", "python/pyndn/encoding/tlv/tlv_encoder.py", "python/pyndn/encoding/tlv/tlv_decoder.py"]}
{"id": "C91", "title": "The version 1 identity manager over the memory storages", "statement": "For every history of IdentityManager operations over MemoryIdentityStorage and MemoryPrivateKeyStorage: a key keeps its bits, a certificate stays what it was, an identity stays, and a default is replaced but never lost. The default key of an identity is a name in it, the default certificate of a key is a certificate name of that key (and in the storage unless a certificate that was not added was made a default), a stored key has its identity and a stored certificate its key. A generated key has a name that was not there, with a number greater than that of every key generated before by the storage for any identity, however the clock is set. createIdentityAndCertificate returns the default certificate name of the default key of the identity, whose type is the one asked for, changes no other identity, and called again changes nothing and returns the same name; for an identity without a default key it makes a certificate of the new key, signed with it, valid two years from now, that getCertificate gives back. signByCertificate signs the signed portion with the private key that the certificate name names, with a key locator of the certificate name without the version, or raises. prepareUnsignedIdentityCertificate puts KEY after the given, signing or own identity prefix, and gives None for names that are not accepted. (Witnesses: a KEY component in the identity makes creating raise after storing the key; replacing a key pair leaves the certificate with the old public key; a default certificate that was not added is returned but not found; deleteIdentity deletes nothing.)", "quantifier": "all histories of operations, names, key types, clocks, and behaviours of the cryptographic library", "why_tests_cant": "Needs every history of operations with every clock; the invariant between identities, keys, certificates and defaults cannot be sampled.", "anchors": ["python/pyndn/security/identity/identity_manager.py", "python/pyndn/security/identity/identity_storage.py", "python/pyndn/security/identity/memory_identity_storage.py", "python/pyndn/security/identity/memory_private_key_storage.py"]}
{"id": "C92", "title": "Signing and verifying with a version 1 KeyChain and the self-verify policy", "statement": "verifyData and verifyInterest with the SelfVerifyPolicyManager call onVerified exactly when the packet is vouched for: the signature is the SHA-256 digest of the signed portion, or an RSA or ECDSA signature whose key locator is a name for which the storage has a public key that accepts the signature over the signed portion; an Interest must end in a SignatureInfo and a SignatureValue that decode. In all other cases onValidationFailed is called, or one of a listed set of exceptions is raised (unknown signature types, stored keys that do not parse). With the NoVerifyPolicyManager everything is verified. In every state of a program that does not set key pairs directly, whatever signByCertificate or signByIdentity signs with a certificate name that has a version verifies with the same KeyChain, at once, after any further operations, and after the packet was encoded and decoded, and its name, meta info and content are as given; the same for signed Interests, to whose name exactly two components are appended. signWithSha256 never fails and its result verifies with every storage. With HMAC, verification is true exactly when the signature is the HMAC of the signed portion with that key, what is signed verifies, and an Interest is not signed without a key name. (Witnesses: with a PIB an unknown key raises instead of calling a callback; a certificate name without a version is used for signing, but the result is not verified by the KeyChain that signed; neither is it after the key pair was replaced.)", "quantifier": "all histories of the identity manager, packets, certificate names, storages and behaviours of the cryptographic library", "why_tests_cant": "Quantifies over every packet and every history of key operations between signing and verifying, and over every cryptographic library.", "anchors": ["python/pyndn/security/key_chain.py", "python/pyndn/security/policy/self_verify_policy_manager.py", "python/pyndn/security/policy/no_verify_policy_manager.py", "python/pyndn/security/policy/policy_manager.py", "python/pyndn/security/verification_helpers.py", "python/pyndn/security/identity/identity_manager.py"]}
{"id": "C93", "title": "Exponential re-expressing of Interests", "statement": "When Interests are expressed with the callback of makeOnTimeout as their onTimeout, then in every history of expressing, Data, timeouts and removals, for each of them: what is sent is the same query each time, with lifetimes that double from the one that the application gave and that do not exceed the maximum (16000 milliseconds if none is given), each time with a newly drawn nonce and not before the Interest before it has timed out. Either it is pending and no callback of the application was called for it, or it is not pending and has exactly one result: the onData of the application with the last Interest sent, the onTimeout of the application with the last Interest sent (only when twice its lifetime exceeds the maximum, or when it has no lifetime, and not before the lifetimes of all Interests sent have passed), or its removal. With a positive lifetime l it is sent at most 1 + log2(max / l) times. (Witnesses: with the lifetime 0 it is expressed again without end and onTimeout is never called; the id that expressInterest has returned does not remove the Interest after it was expressed again.)", "quantifier": "all histories of expressing, Data, timeouts and removals, all Interests and maximum lifetimes", "why_tests_cant": "Quantifies over every interleaving of any number of Interests with Data, timeouts and removals.", "anchors": ["python/pyndn/util/exponential_re_express.py", "python/pyndn/node.py", "python/pyndn/interest.py", "python/pyndn/impl/pending_interest_table.py"]}
{"id": "C94", "title": "A Link packet carries the delegations that were added", "statement": "After every history of addDelegation, removeDelegation and the setters of Data on a new Link, no call has raised (for preferences and names that NDN-TLV can carry), getDelegations is the sorted map of the names that were added and not removed since, with the preference of the last add, the other fields are those set last, and the packet carries the delegations: its type is LINK and whoever decodes its content gets exactly them. The same holds when the history starts with a received Link. In any Link, addDelegation and removeDelegation change only the delegation of that name, and removeDelegation tells whether it was there. What is sent is what another Link object decodes, whatever that object was before. wireDecode accepts an input exactly when it decodes as Data of type LINK with a content that decodes as delegations, and then the object carries its delegations. Link(data) has the same name, content and signature, and the delegations of the content; it is unchanged Data without delegations when the content does not decode. (Witnesses: Link(data) may have a type other than LINK; after addDelegation has raised for a negative preference the delegation is in the object but not in the packet, and no other can be added; after wireDecode has raised for a packet that is not a LINK, the object has the fields of the packet and the delegations from before.)", "quantifier": "all histories of calls, all inputs of wireDecode and all objects it is called on", "why_tests_cant": "Quantifies over every history and every input, including objects that were used before.", "anchors": ["python/pyndn/link.py", "python/pyndn/delegation_set.py", "python/pyndn/data.py", "python/pyndn/meta_info.py", "python/pyndn/encoding/tlv_0_2_wire_format.py"]}
{"id": "C95", "title": "Names as keys of dictionaries", "statement": "In every history of building and changing Name objects, hash(name) depends only on the components that the name has now (the kept hash code is never that of earlier components), so names that are equal have equal hashes at any time. A Python dictionary with Name objects as keys, in which no Name is changed while it is a key, answers, stores and removes as a map from the values of the names: what is stored under a name is found with every other object of an equal name, whatever the hash functions of Python are. (Witness: a Name that is changed while it is a key is not found anymore with its old value, its new value or the key object itself, and cannot be removed.)", "quantifier": "all histories of Name objects and dictionary operations, all hash functions of the language", "why_tests_cant": "Quantifies over every interleaving of changes, hash computations and dictionary operations on any number of objects.", "anchors": ["python/pyndn/name.py", "python/pyndn/util/blob.py"]}
{"id": "C96", "title": "Key pairs in files (version 1), with failing operations and crashes", "statement": "After every history of generateKeyPair and deleteKeyPair of FilePrivateKeyStorage, in any number of processes, getPublicKey, sign and doesKeyExist answer as a map from key names to key pairs; generateKeyPair makes a pair exactly when the name has none and otherwise raises SecurityException and changes no file; two names share no file; mapping.txt has a line for each generation that succeeded. If operations on files fail and processes end anywhere in a call, also inside a write: a call that reports success has done all of it, and the private key is readable by its owner only; the keys of other names are not touched; a name for which there is a key is never written to by generateKeyPair; sign uses and getPublicKey gives only a whole key that was generated for this name, or they raise; and deleteKeyPair with generateKeyPair makes any name usable again. (Witnesses: after a crash in generateKeyPair there is a public key without a private key and generateKeyPair raises from then on; after a crash in deleteKeyPair sign still signs although there is no public key; a crash before chmod leaves the whole private key in a file with the mode of any new file. doesKeyExist raises AttributeError for symmetric keys.)", "quantifier": "all histories of calls, all failures of file operations, all points where a process can end, all keys", "why_tests_cant": "Quantifies over every crash point, including every prefix of every write, after every history.", "anchors": ["python/pyndn/security/identity/file_private_key_storage.py", "python/pyndn/util/common.py", "python/pyndn/security/certificate/public_key.py", "python/pyndn/encoding/der/der_node.py"]}
{"id": "C97", "title": "KeyChain(pibLocator, tpmLocator, allowReset): defaults, the TPM of a PIB, resets, crashes", "statement": "KeyChain(\"\", \"\") uses the locators of NDN_CLIENT_PIB and NDN_CLIENT_TPM if they are not empty, otherwise the last assignment in client.conf, otherwise the scheme of the platform; once a process has found them, the environment has no effect on it. A PIB that records no TPM, or the given one, is used as it is and records the TPM; if it records another one, KeyChain raises LocatorMismatchError and changes nothing, or erases the PIB if allowReset; the default PIB is erased if it does not record the default TPM. In no other case a constructor changes the content of a PIB. So over all histories of KeyChains and calls, in all processes and environments: a PIB that is not the default one and that nobody may reset keeps all its content and its TPM, and no KeyChain on it uses another TPM; and if only the default TPM is used, no PIB loses anything. A constructor that raises changes no content. If the process ends in it, the PIB has its old content and TPM, or was to be erased and is empty, and KeyChain again gives the same. (Witnesses: after a reset the PIB records no TPM, and any TPM is accepted from then on; KeyChain(\"\", \"tpm-memory:\") is accepted for the default PIB, and the next KeyChain() erases it; with a wrong NDN_CLIENT_TPM the second try erases the default PIB; with a wrong NDN_CLIENT_PIB the first try raises and the same call again succeeds.)", "quantifier": "all locators, environments, files client.conf, histories of constructors and PIB calls in any number of processes, all points where a process can end", "why_tests_cant": "Whether keys are lost depends on the whole history of constructors, processes and environments that used the file.", "anchors": ["python/pyndn/security/key_chain.py", "python/pyndn/util/config_file.py", "python/pyndn/security/pib/pib.py", "python/pyndn/security/pib/pib_sqlite3.py"]}
{"id": "C98", "title": "BasicIdentityStorage: identities, keys, certificates and defaults over all histories", "statement": "After every history of addIdentity, addKey, addCertificate, deletePublicKeyInfo, deleteCertificateInfo, deleteIdentityInfo, setDefaultIdentity, setDefaultKeyNameForIdentity, setDefaultCertificateNameForKey, activateKey and deactivateKey with names that have a URI: doesIdentityExist, doesKeyExist and doesCertificateExist, getKey and getCertificate answer exactly what was added and not deleted, the first key and certificate of a name staying until they are deleted; getDefaultIdentity and getDefaultCertificateNameForKey answer the one that was chosen last, if it existed then and was not deleted; getAllIdentities and getAllCertificateNamesOfKey list exactly the names that are, or are not, the default, each once. At every point a key has its identity, a certificate its key, and a default exists; a deleted identity leaves no key or certificate behind. The only exception of these calls is SecurityException for a key of another identity than the given one, and it changes nothing. If the process ends in a call, the file holds what a history without a crash would give, and the same call again completes it. getDefaultKeyNameForIdentity and getAllKeyNamesOfIdentity answer the identity with the escaped text of the last component: this is the name of the key if the text needs no escape. (Witnesses: for a key named \"k k\" they answer \"k%20k\", for which there is no key; choosing a default that does not exist raises nothing and loses the default.)", "quantifier": "all names with a URI, keys, certificates, histories of calls, and points where the process can end", "why_tests_cant": "The answer depends on the whole history of calls, and on the escaped form of every possible name.", "anchors": ["python/pyndn/security/identity/basic_identity_storage.py"]}
