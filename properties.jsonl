{"id": "C01", "title": "TLV framing round trip", "statement": "Any TLV that can be constructed (type and value length both below 65536, byte values) serializes to a 4-byte big-endian header followed by the value, and deserializing that wire image followed by arbitrary extra bytes gives back the same type and value and reports a length that points exactly at the first extra byte. Any type or length outside 0..65535 is refused with OverflowError instead of being silently truncated.", "quantifier": "every type number, every byte string value, every trailing byte string", "why_tests_cant": "65536 types times unboundedly many values and trailers; off-by-one at the 255/256 and 65535/65536 boundaries only shows on particular lengths", "anchors": ["ccnpy/core/Tlv.py:Tlv.__init__,_serialize,deserialize,__len__"]}
{"id": "C02", "title": "TLV deserialization is exact about its bounds", "statement": "Tlv.deserialize on an arbitrary byte string either raises ParseError, exactly when fewer than 4 bytes are present or fewer value bytes are present than the length field declares, or returns a TLV whose serialization is precisely the prefix of the input of the reported length. It never reads past the declared length and never raises anything else.", "quantifier": "every byte string", "why_tests_cant": "adversarial inputs are unbounded; a test suite samples a handful of malformed buffers", "anchors": ["ccnpy/core/Tlv.py:Tlv.deserialize"]}
{"id": "C03", "title": "A TLV sequence has one reading", "statement": "The concatenated wire images of a list of TLVs determine the list: two different lists of TLVs never have the same concatenation, and parsing the concatenation recovers the list, so nested containers can be decoded without ambiguity.", "quantifier": "every pair of lists of TLVs", "why_tests_cant": "uniqueness is a statement about pairs of inputs; tests can only show chosen pairs differ", "anchors": ["ccnpy/core/Tlv.py:Tlv.flatten,deserialize", "ccnpy/core/TlvType.py:TlvType.auto_value_parse"]}
{"id": "C04", "title": "Variable length integers survive the wire", "statement": "For every integer 0 <= n < 2^64 an integer TLV built from n parses back to n, its body has 1, 2, 3, 4 or 8 bytes (the first that fits), and encoded size is monotone in n. A negative integer is refused with OverflowError. Integers of 2^64 and above are not refused: they are stored modulo 2^64.", "quantifier": "every integer", "why_tests_cant": "2^64 values and five width boundaries, plus the unbounded tail", "anchors": ["ccnpy/core/Tlv.py:Tlv.number_to_array,array_to_number,create_varint", "ccnpy/core/TlvType.py:IntegerTlvType"]}
{"id": "C05", "title": "Fixed width integers survive the wire", "statement": "The fixed width encoders (8, 16, 24, 32, 64 bit) produce exactly their width and decode to the input for every in-range value; out of range values raise for 8, 16, 24 and 32 bits, and are reduced modulo 2^64 for 64 bits.", "quantifier": "every integer, each width", "why_tests_cant": "the range is too large to enumerate and the failure behaviour differs per width", "anchors": ["ccnpy/core/Tlv.py:Tlv.create_uint8,create_uint16,create_uint64,uint16_to_array,uint24_to_array,uint32_to_array,uint64_to_array"]}
{"id": "C06", "title": "Name wire round trip", "statement": "Every name (any list of components of any 16-bit type that fits in 65535 bytes) serializes and parses back to a name with the same component types and the same component bytes, and to the same wire image.", "quantifier": "every list of name components", "why_tests_cant": "unbounded component lists, types and values", "anchors": ["ccnpy/core/Name.py:Name.parse,serialize,append"]}
{"id": "C07", "title": "A parsed name equals the name that was sent", "statement": "Two names are equal with == exactly when their components have the same types, values and Python types of the values. Comparing a name with the result of parsing its own wire image with == yields True exactly when every component holds bytes; it yields False for every name with a component created by append_chunk_id or append_manifest_id, although the wire images are the same.", "quantifier": "every name", "why_tests_cant": "equality depends on how each component was created, the unit tests only cover segment names", "anchors": ["ccnpy/core/Name.py:Name.__eq__,parse,append_chunk_id,append_manifest_id", "ccnpy/core/Tlv.py:Tlv.__eq__"]}
{"id": "C08", "title": "Content Object round trip", "statement": "Every content object built from any subset of name, expiry time, payload type, payload and final chunk id, parses back from its wire image to an object with the same fields and the same wire image (timestamps: see the timestamp property). Every object whose fields are in range and whose serialization is short enough can be built.", "quantifier": "every combination of optional fields with every value", "why_tests_cant": "2^5 field subsets times unbounded values, fields are re-ordered on output", "anchors": ["ccnpy/core/ContentObject.py:ContentObject.parse,serialize"]}
{"id": "C09", "title": "Packet round trip", "statement": "Every content object packet, unsigned or signed, parses back from its wire image to the same fixed header, body, validation algorithm and validation payload and to the same wire image, and the packet_length field of the header equals the number of bytes emitted. Every packet whose fields are in range and which comes to less than 65536 bytes can be built.", "quantifier": "every packet the API can build, with any trailing structure of validation fields", "why_tests_cant": "unbounded bodies; header length arithmetic over all sizes up to 65535", "anchors": ["ccnpy/core/Packet.py:Packet.serialize,deserialize,create_content_object,create_signed_content_object", "ccnpy/core/FixedHeader.py:FixedHeader"]}
{"id": "C10", "title": "Parsers always terminate and classify their input", "statement": "For every byte string the decoders of packets, content objects, names and manifests terminate, consuming at least four bytes per loop iteration, and give either a value or one exception.", "quantifier": "every byte string", "why_tests_cant": "termination on all inputs cannot be tested", "anchors": ["ccnpy/core/Packet.py:Packet.deserialize", "ccnpy/core/TlvType.py:auto_value_parse", "ccnpy/flic/tlvs/Manifest.py:Manifest.deserialize", "ccnpy/core/ContentObject.py:ContentObject.parse"]}
{"id": "C11", "title": "Parsing normalises: a second trip changes nothing", "statement": "If a byte string is accepted by a manifest level decoder (group data, hash group, node data, node, name), and its integers are below 2^64, then serializing the result and parsing again gives an equal object and the same wire image: the serialization is a normal form.", "quantifier": "every accepted byte string, not only those the library wrote", "why_tests_cant": "ranges over all attacker chosen inputs: unknown fields, other field orders, padding, non minimal integers", "anchors": ["ccnpy/flic/tlvs/GroupData.py", "ccnpy/flic/tlvs/HashGroup.py", "ccnpy/flic/tlvs/Node.py", "ccnpy/core/TlvType.py"]}
{"id": "C12", "title": "Unknown and reordered fields do not change what is decoded", "statement": "Inserting any TLV of an unrecognised type anywhere in the body of a group data, hash group or AEAD context, or permuting the fields, does not change the decoded object; repeating a recognised field is refused with ParseError.", "quantifier": "every body, every insertion point, every unrecognised type and value, every permutation", "why_tests_cant": "forward compatibility quantifies over future fields that do not exist yet", "anchors": ["ccnpy/core/TlvType.py:TlvType.auto_value_parse", "ccnpy/flic/tlvs/GroupData.py:GroupData.parse", "ccnpy/flic/tlvs/HashGroup.py:HashGroup.parse"]}
{"id": "C13", "title": "Pointers round trip and reject torn lists", "statement": "A pointer list of any length (of 32-byte or other sized hash values, of type SHA-256 or SHA-512) parses back to the same list in the same order; no byte string that is not a whole number of hash TLVs is accepted.", "quantifier": "every list of hash values; every byte string", "why_tests_cant": "unbounded lists", "anchors": ["ccnpy/flic/tlvs/Pointers.py:Pointers.parse", "ccnpy/core/HashValue.py:HashValue"]}
{"id": "C14", "title": "Group data and hash group round trip", "statement": "Every group data (any subset of subtree size, subtree digest, leaf size, leaf digest, name constructor id, start segment id) and every hash group parses back to an equal object and the same wire image.", "quantifier": "all 64 field subsets with all values, any pointer list", "why_tests_cant": "unbounded values", "anchors": ["ccnpy/flic/tlvs/GroupData.py:GroupData", "ccnpy/flic/tlvs/HashGroup.py:HashGroup"]}
{"id": "C15", "title": "Node and node data round trip", "statement": "Every node, with any node data (sizes, digests, locators, any list of name constructor definitions, any vendor fields) and any non-empty list of hash groups, parses back from its wire image to an equal node. Every node and node data whose fields are in range and whose serialization is short enough can be built.", "quantifier": "every node", "why_tests_cant": "nested unbounded lists", "anchors": ["ccnpy/flic/tlvs/Node.py:Node", "ccnpy/flic/tlvs/NodeData.py:NodeData", "ccnpy/flic/tlvs/NcDef.py", "ccnpy/flic/tlvs/NcSchema.py", "ccnpy/flic/tlvs/Locators.py"]}
{"id": "C16", "title": "Manifest round trip", "statement": "Every manifest, clear or encrypted, with any supported security context and optional authentication tag, parses back to the same manifest, including when carried as the payload of a content object. Every manifest whose fields are in range and whose serialization is short enough can be built.", "quantifier": "every manifest", "why_tests_cant": "unbounded nested structure", "anchors": ["ccnpy/flic/tlvs/Manifest.py:Manifest.deserialize,content_object,from_content_object"]}
{"id": "C17", "title": "Node padding is exact and invisible", "statement": "Padding a node to a target length gives exactly that wire length whenever the node is at least four bytes shorter than the target, leaves it unchanged otherwise, and the padded image decodes to the same node.", "quantifier": "every node and every target length", "why_tests_cant": "the four byte gap below the target is a corner that depends on arithmetic for all lengths", "anchors": ["ccnpy/flic/tlvs/Node.py:Node._create_padded_tlv", "ccnpy/core/Pad.py:Pad"]}
{"id": "C18", "title": "Pointer iteration order", "statement": "Iterating the hash values of a manifest yields every pointer of every hash group exactly once, in wire order, each with its group's name constructor id and, if the group has a start segment id s, the segment id s + (index in the group), otherwise none. A group without a name constructor id raises ValueError when its first pointer is reached.", "quantifier": "every node", "why_tests_cant": "order and completeness over unbounded lists of lists", "anchors": ["ccnpy/flic/tlvs/Node.py:NodeIterator", "ccnpy/flic/tlvs/Manifest.py:hash_values"]}
{"id": "C19", "title": "Packet hash covers exactly body and validation", "statement": "The content object hash of a packet is a function of the serialized body, validation algorithm and validation payload only: changing hop-by-hop header fields never changes it, and two packets with equal hash preimages have the same body, validation algorithm and validation payload bytes.", "quantifier": "every pair of packets", "why_tests_cant": "pairs of packets; needs injectivity of the concatenated preimage", "anchors": ["ccnpy/core/Packet.py:Packet.content_object_hash,_calculate_content_object_hash"]}
{"id": "C20", "title": "Timestamps survive parsing", "statement": "A signature time or expiry time of m milliseconds that is parsed and re-serialized encodes m milliseconds again, or m - 1; it is exactly m for m outside the windows [1000*2^j, 1024*2^j), in particular for all times from November 2004 to January 2038, so that hash and signature of a re-serialized packet are unchanged. Inside the windows a millisecond can be lost (1001 ms becomes 1000 ms).", "quantifier": "every millisecond count below 2^52", "why_tests_cant": "binary floating point rounding over 2^53 values; the failing values are sparse", "anchors": ["ccnpy/core/Timestamp.py:Timestamp", "ccnpy/core/ExpiryTime.py", "ccnpy/core/SignatureTime.py"]}
{"id": "C21", "title": "Signed packets validate", "statement": "A packet signed by a signer validates against a key store holding the matching verification key under the key id the signer put in the packet, provided the signature scheme is correct; with CRC32C it validates without any key.", "quantifier": "every body, every key, every signature scheme satisfying verify(sign(x)) = true", "why_tests_cant": "all bodies and keys; the bytes signed and the bytes verified are produced by different code", "anchors": ["ccnpy/core/PacketValidator.py:PacketValidator.validate_packet", "ccnpy/crypto/RsaSha256.py", "ccnpy/crypto/Crc32c.py", "ccnpy/flic/ManifestFactory.py:build_packet"]}
{"id": "C22", "title": "What packet validation accepts", "statement": "Validation returns normally exactly when the packet carries no validation algorithm, or carries CRC32C with the correct checksum of body and algorithm bytes, or carries RSA-SHA256 and either no key store was configured or the key for its key id verifies the payload. An RSA packet with unknown key id raises KeyIdNotFoundError, a mismatch raises ValueError.", "quantifier": "every packet and every key store", "why_tests_cant": "acceptance sets range over all packets", "anchors": ["ccnpy/core/PacketValidator.py:PacketValidator.validate_packet"]}
{"id": "C23", "title": "Altering a signed packet is detected", "statement": "If two packets carry the same validation payload under a deterministic checksum or signature and both validate with the same key, then their signed byte strings are both accepted by the verifier; and equal signed byte strings imply equal bodies and equal validation algorithms: no byte can be moved between body and algorithm without detection.", "quantifier": "every pair of packets", "why_tests_cant": "quantifies over all modifications", "anchors": ["ccnpy/core/PacketValidator.py", "ccnpy/core/Packet.py", "ccnpy/crypto/Verifier.py"]}
{"id": "C24", "title": "Chunking preserves the file", "statement": "Splitting a byte stream into data objects yields payloads that concatenate to the stream, none of them empty, all except the last of maximal size, with consecutive chunk ids from 0, and file metadata whose sizes, hashes and total agree with the objects written.", "quantifier": "every byte stream, every maximum packet size and schema", "why_tests_cant": "all stream lengths around every multiple of the chunk size", "anchors": ["ccnpy/flic/name_constructor/SchemaImpl.py:SchemaImpl.chunk_data,_calculate_data_payload_size,_create_data_packet"]}
{"id": "C25", "title": "Data packets fit", "statement": "No data packet produced by chunking exceeds max_packet_size, and chunking never fails for lack of room once an empty packet fits.", "quantifier": "every stream, every maximum packet size, prefix, expiry time", "why_tests_cant": "size of chunk id and final chunk id fields varies with the chunk number up to 2^24", "anchors": ["ccnpy/flic/name_constructor/SchemaImpl.py:_calculate_data_payload_size,_create_data_packet"]}
{"id": "C26", "title": "Final chunk id marks exactly the last chunk", "statement": "With the segmented schema the data objects are named prefix/chunk=0..n-1, only the last one carries a final chunk id, and it equals its own chunk number; the other schemas emit none.", "quantifier": "every stream", "why_tests_cant": "all stream lengths", "anchors": ["ccnpy/flic/name_constructor/SchemaImpl.py:chunk_data", "ccnpy/flic/name_constructor/SegmentedSchemaImpl.py"]}
{"id": "C27", "title": "The tree optimizer returns a usable tree", "statement": "For every number of data objects 1 <= n < 2^52 and pointers per manifest 2 <= p < 2^52, the optimizer returns d direct and m >= 1 indirect pointers with d >= 1, d + m = p, with enough capacity for n, and with the least number of internal nodes among all splits (and least waste among those), and the least number of leaves that then holds n. Beyond 2^53 this fails because of float division.", "quantifier": "every n and p below 2^52", "why_tests_cant": "argmin over an unbounded two parameter family, involves float division", "anchors": ["ccnpy/flic/tree/TreeOptimizer.py:TreeOptimizer.minimize_k_min_waste,calculate_k", "ccnpy/flic/tree/OptimizerResult.py:OptimizerResult"]}
{"id": "C28", "title": "Computed tree height is never too small", "statement": "For at most 2^32 data objects and 2^20 pointers per manifest the tree that is actually built is never higher than the height the optimizer computed, so the build never trips over the height assertion; it raises nothing but encoding errors and errors of the packet factory.", "quantifier": "every n up to 2^32 and every d, m with d + m = p up to 2^20", "why_tests_cant": "relates a closed formula with logarithms to a recursive construction for all sizes", "anchors": ["ccnpy/flic/tree/OptimizerResult.py:_calculate_tree_height", "ccnpy/flic/tree/TreeBuilder.py:_get_height,build"]}
{"id": "C29", "title": "Tree covers every chunk once, in order", "statement": "Preorder traversal of the manifest tree built for n chunks meets chunk 0, 1, ..., n-1 exactly once each and in that order.", "quantifier": "every n >= 1, every d >= 1 and m >= 1", "why_tests_cant": "recursive construction from right to left over unbounded n", "anchors": ["ccnpy/flic/tree/TreeBuilder.py:TreeBuilder.build,_bottom_up_preorder,_interior_manifest,_leaf_manifest"]}
{"id": "C30", "title": "Fan-out bounds", "statement": "No manifest of a built tree has more than p pointers; an interior manifest has at most d direct and at most m indirect pointers and at least one of each; a leaf has between 1 and p direct pointers; the count assertions of the hash group builders never fire. A given tree degree bounds the pointers of every manifest, and the root manifest has exactly one pointer.", "quantifier": "every n, d, m", "why_tests_cant": "holds at every node of unboundedly many trees", "anchors": ["ccnpy/flic/tree/TreeBuilder.py", "ccnpy/flic/HashGroupBuilder.py", "ccnpy/flic/tree/HashGroupBuilderPair.py"]}
{"id": "C31", "title": "Trees are packed: height and node counts", "statement": "The built tree has the least height L such that a full tree of height L holds n chunks, every subtree takes as many chunks as fit, and the leaf and internal counters equal the numbers of leaf and interior manifests written.", "quantifier": "every n, d, m", "why_tests_cant": "counting statement for all n", "anchors": ["ccnpy/flic/tree/TreeBuilder.py:leaf_count,internal_count,build"]}
{"id": "C32", "title": "Manifest ids are unique", "statement": "All manifests of one tree get different manifest ids, no id is negative, and the id factory never raises, given the optimizer's height.", "quantifier": "every n, d, m", "why_tests_cant": "per level counters interact with the shape of the whole tree", "anchors": ["ccnpy/flic/tree/ManifestIdFactory.py:ManifestIdFactory", "ccnpy/flic/tree/TreeBuilder.py:_get_next_manifest_name"]}
{"id": "C33", "title": "Start segment ids name the right children", "statement": "In a segmented tree, for every manifest and every pointer in it, start segment id plus offset is the manifest id (indirect) or chunk number (direct) in the name of the object whose hash the pointer holds. The j-th data object is named with the data prefix and the chunk id component j, a manifest with the manifest prefix and a manifest id component, and no two of these names are the same; in a prefixed tree the names are the prefixes and in a hashed tree there are none.", "quantifier": "every n, d, m, every node and pointer", "why_tests_cant": "depends on creation order across the whole tree", "anchors": ["ccnpy/flic/tree/TreeBuilder.py:_interior_packet,_get_start_segment_id,_interior_add_direct", "ccnpy/flic/name_constructor/NameConstructorContext.py:create; SegmentedSchemaImpl.py:get_name"]}
{"id": "C34", "title": "The root manifest leads to the top manifest", "statement": "In a segmented tree the name the root manifest implies for its single pointer (manifest id 0) is the name of the top manifest exactly when the tree is as high as the optimizer computed. This is so for at least two indirect pointers per node; it fails whenever the optimizer picks one indirect pointer per node and there are two or more chunks, in particular for every file of 2..p chunks.", "quantifier": "every n, p", "why_tests_cant": "depends on the optimizer result for the file size; unit tests build other sizes", "anchors": ["ccnpy/flic/ManifestTree.py:_create_root_manifest", "ccnpy/flic/tree/OptimizerResult.py:_calculate_tree_height", "ccnpy/flic/tree/ManifestIdFactory.py"]}
{"id": "C35", "title": "Write then traverse returns the file (hashed and prefix schemas)", "statement": "For every non-empty byte stream, building a manifest tree into a packet store and traversing it from the root manifest writes back exactly the stream, unless two different packets collide in SHA-256.", "quantifier": "every stream, packet size, tree degree, size options", "why_tests_cant": "end to end statement over unbounded files and parameters", "anchors": ["ccnpy/flic/ManifestTree.py:ManifestTree.build", "ccnpy/flic/tree/Traversal.py:Traversal.traverse", "ccnpy/flic/tree/TreeIO.py:PacketMemoryWriter,PacketMemoryReader"]}
{"id": "C36", "title": "Write then traverse returns the file (segmented schema)", "statement": "For the segmented schema writing and then traversing returns the file if it has one chunk or the optimizer picks at least two indirect pointers per node; with two or more chunks and one indirect pointer per node the traversal always raises ValueError at the top manifest.", "quantifier": "every stream, packet size, tree degree", "why_tests_cant": "as above", "anchors": ["ccnpy/flic/ManifestTree.py", "ccnpy/flic/tree/Traversal.py", "ccnpy/flic/tree/TreeIO.py:PacketMemoryReader.get"]}
{"id": "C37", "title": "Write order is crash safe", "statement": "At every point during a build, every manifest already put to the output has all the objects it points to already put: a crash never leaves a dangling manifest, and the root manifest is written last.", "quantifier": "every build, every crash point", "why_tests_cant": "quantifies over all crash points of all executions", "anchors": ["ccnpy/flic/tree/TreeBuilder.py:_write_packet,_interior_manifest,_leaf_manifest", "ccnpy/flic/ManifestTree.py:build_root", "ccnpy/flic/name_constructor/SchemaImpl.py:chunk_data"]}
{"id": "C38", "title": "Subtree sizes are right", "statement": "With node subtree sizes enabled, the subtree size of every manifest equals the number of application bytes below it, and the root's equals the file size.", "quantifier": "every file and tree shape", "why_tests_cant": "sum over unbounded trees", "anchors": ["ccnpy/flic/tree/TreeBuilder.py:_build_packet,_get_optional_subtree_size", "ccnpy/flic/HashGroupBuilder.py:direct_size,indirect_size"]}
{"id": "C39", "title": "Group sizes are right", "statement": "With group sizes and node subtree sizes enabled, the leaf size of a hash group is the number of application bytes in its direct children and its subtree size the number of bytes below all its pointers. With node subtree sizes disabled the leaf size is still right but the subtree size is not. The root manifest has one hash group with one pointer; with group sizes enabled its subtree size is the file size.", "quantifier": "every file and tree shape, every option setting", "why_tests_cant": "sum over unbounded trees, option interactions", "anchors": ["ccnpy/flic/HashGroupBuilder.py:hash_group", "ccnpy/flic/tree/TreeBuilder.py"]}
{"id": "C40", "title": "Manifest packets fit", "statement": "No manifest packet put to the output during the tree build is longer than max_packet_size plus what the builder leaves out of its calculation: its name, its expiry time and the bytes of its size and start id fields beyond what the calculation assumes (at most 38). The manifest TLV inside it is never longer than max_packet_size. Without the fields named every such packet fits; a name, group sizes and an expiry time each make some tree manifest longer than max_packet_size.", "quantifier": "every file, max_packet_size, prefix, option setting", "why_tests_cant": "size accounting is split over three classes", "anchors": ["ccnpy/flic/tree/ManifestSizeCalculator.py:calculate_max_pointers", "ccnpy/flic/ManifestFactory.py:_build"]}
{"id": "C41", "title": "Maximum pointer count is tight", "statement": "The number of pointers per manifest that the size calculator returns fits in max_packet_size in its reference manifest and one more would not.", "quantifier": "every max_packet_size, schema, total byte count", "why_tests_cant": "float division and byte accounting over all sizes", "anchors": ["ccnpy/flic/tree/ManifestSizeCalculator.py:calculate_max_pointers"]}
{"id": "C42", "title": "Memory store behaves like a map", "statement": "After any sequence of puts, get by hash returns the first packet put with that hash, raises KeyError for a hash never put, raises ValueError for a named packet asked for under another name, and the byte and packet counters equal the sums over all and over distinct packets.", "quantifier": "every history of puts and every query", "why_tests_cant": "histories", "anchors": ["ccnpy/flic/tree/TreeIO.py:PacketMemoryWriter.put,PacketMemoryReader.get"]}
{"id": "C43", "title": "Name constructors are scoped to their branch", "statement": "During traversal the name constructor definitions found in a manifest affect only its own descendants; siblings and ancestors keep resolving with the definitions they had.", "quantifier": "every tree of manifests and every assignment of definitions", "why_tests_cant": "ranges over all traversals", "anchors": ["ccnpy/flic/tree/Traversal.py:_update_nc_cache,NameConstructorCache.update,_visit_children"]}
{"id": "C44", "title": "Traversal visits and emits in order, each packet validated", "statement": "Traversal over any store writes the payloads of the data objects reached, in preorder, counts every packet visited, validates every packet before using it, and stops with an error at the first missing, mismatching or invalid packet.", "quantifier": "every store content (including hostile) and every root", "why_tests_cant": "arbitrary stores and shapes", "anchors": ["ccnpy/flic/tree/Traversal.py:Traversal.preorder,_visit_children,_fetch_packet"]}
{"id": "C45", "title": "AEAD encrypted manifests decrypt to the same node", "statement": "Encrypting any node and decrypting the resulting manifest with the same parameters gives back the node, for every AEAD scheme with open(seal(x)) = x, with or without salt, in GCM and CCM modes. With a key of 16 or 32 bytes and fields in range, encryption does not fail and adds no bytes to the node; with any other key length it raises ValueError.", "quantifier": "every node, key, nonce, salt, key number, KDF data", "why_tests_cant": "unbounded nodes; encryption and decryption rebuild nonce and associated data separately", "anchors": ["ccnpy/flic/aeadctx/AeadImpl.py", "ccnpy/flic/aeadctx/AeadEncryptor.py", "ccnpy/flic/aeadctx/AeadDecryptor.py"]}
{"id": "C46", "title": "Encryption binds the security context", "statement": "The associated data given to the cipher determines the security context: two manifests with different security contexts never present the same associated data; and different (salt, nonce) pairs under one key never give the same IV.", "quantifier": "every pair of contexts and of (salt, nonce) pairs", "why_tests_cant": "pairs", "anchors": ["ccnpy/flic/aeadctx/AeadImpl.py:_get_iv,encrypt,decrypt", "ccnpy/flic/tlvs/AeadCtx.py"]}
{"id": "C47", "title": "Mismatched key number or mode is refused", "statement": "Decrypting a manifest whose security context has another key number than the decryptor's, or a cipher mode that does not match the key, raises an error and never invokes the cipher.", "quantifier": "every manifest and parameter set", "why_tests_cant": "all combinations", "anchors": ["ccnpy/flic/aeadctx/AeadImpl.py:decrypt", "ccnpy/flic/aeadctx/AeadDecryptor.py"]}
{"id": "C48", "title": "RSA-OAEP key wrap round trip", "statement": "A content key and salt wrapped for an RSA key and unwrapped with the same context gives back the same key and salt, for every OAEP implementation with decrypt(encrypt(x)) = x under equal labels. A manifest carries the wrapped key if and only if the caller asks for it. Wrapping does not fail for a key with a salt, complete KDF data and a large enough RSA key.", "quantifier": "every key, salt < 2^32, context", "why_tests_cant": "unbounded", "anchors": ["ccnpy/flic/tlvs/WrappedKey.py", "ccnpy/flic/RsaOaepCtx/RsaOaepImpl.py"]}
{"id": "C49", "title": "Key wrap label binds the context", "statement": "The OAEP label determines key number, mode, KDF info, key id and hash algorithm of the wrap: contexts that differ in one of these never share a label.", "quantifier": "every pair of contexts", "why_tests_cant": "pairs, and the label is a concatenation without obvious framing", "anchors": ["ccnpy/flic/tlvs/WrappedKey.py"]}
{"id": "C50", "title": "Key store lookups", "statement": "After any sequence of additions the key store returns for a name, key id or key number the key most recently added under it and raises the documented not-found error otherwise; adding a key never changes what other names resolve to.", "quantifier": "every history of additions and every query", "why_tests_cant": "histories", "anchors": ["ccnpy/crypto/InsecureKeystore.py:InsecureKeystore"]}
{"id": "C51", "title": "Decryptor cache returns the right decryptor", "statement": "For every sequence of manifests without failed lookups in which AEAD and RSA-OAEP contexts do not share a key number, the decryptor handed out for a security context is one created for the key number of that context. After a failed lookup, or when the two kinds share a key number, the cache hands out a decryptor that was not created for the context.", "quantifier": "every history of get_or_create calls", "why_tests_cant": "histories with failures in the middle", "anchors": ["ccnpy/flic/tree/DecryptorCache.py:DecryptorCache.get_or_create"]}
{"id": "C52", "title": "Empty and tiny inputs", "statement": "A manifest tree can be built for every non-empty byte stream of at most 2^24 chunks under settings with which data, manifest and root packets have room; for the empty stream the build fails with ValueError under these settings and never succeeds under any.", "quantifier": "every byte stream, every such setting", "why_tests_cant": "boundary of an unbounded family; no unit test covers it", "anchors": ["ccnpy/flic/tree/OptimizerResult.py:_calculate_tree_height", "ccnpy/flic/tree/TreeBuilder.py:_build_leaf_packet"]}
{"id": "C53", "title": "Equality agrees with the wire", "statement": "Two TLV objects compare equal exactly when their values are equal; for objects of one type this is equality of the wire images. The type is ignored: for example SHA-256 and SHA-512 hash values with the same bytes compare equal but have different wire images.", "quantifier": "every pair of TLV objects", "why_tests_cant": "pairs", "anchors": ["ccnpy/core/Tlv.py:Tlv.__eq__", "ccnpy/core/HashValue.py:HashValue.__eq__", "ccnpy/core/TlvType.py:IntegerTlvType.__eq__,OctetTlvType.__eq__"]}
{"id": "C54", "title": "A directory store returns what was stored", "statement": "For every packet put into a directory store without nesting and not overwritten by another with the same hash, asking the directory reader for its hash and name returns a packet with the same wire image if its name holds only bytes; for a name with an id component it raises ValueError. A hash that was never put raises FileNotFoundError. Asking by name alone never succeeds, nothing is found in a nested store, and the reader returns any packet found under a hash without checking that hash.", "quantifier": "every packet, every directory content", "why_tests_cant": "arbitrary file contents", "anchors": ["ccnpy/flic/tree/TreeIO.py:PacketDirectoryWriter,PacketDirectoryReader", "ccnpy/core/Packet.py:load,save"]}
{"id": "C55", "title": "Embedding the public key in a signature", "statement": "A signer asked to include its public key never produces a validation algorithm: RsaKey has no der() method, so the call raises AttributeError for every key, key link and time that can be encoded.", "quantifier": "every RSA key, key link and time", "why_tests_cant": "universal over keys and options", "anchors": ["ccnpy/core/ValidationAlg.py:ValidationAlg_RsaSha256.__init__", "ccnpy/crypto/RsaSha256.py:RsaSha256Signer.get_validation_alg"]}
{"id": "C56", "title": "KDF data does not change the cipher key", "statement": "The content key given by the parameters is used directly with the cipher: two encryptions of one node with the same key, salt and nonce use the same cipher key, IV and plaintext whatever KDF data they carry; only the associated data differs.", "quantifier": "every node, key, salt, nonce and pair of KDF data", "why_tests_cant": "observing the inputs of the cipher for all contexts", "anchors": ["ccnpy/flic/aeadctx/AeadImpl.py:AeadImpl", "ccnpy/flic/aeadctx/AeadParameters.py"]}
{"id": "C57", "title": "No nonce is used twice", "statement": "With an encryptor, every manifest of a build, the root manifest included, is sealed with its own draw of the random generator: the draws used are consecutive, one per manifest written, and none is shared by two manifests, whether or not the build succeeds. A successful build draws two more than it writes manifests, for the two manifests it only measures. No draw is used twice by any sequence of builds in one process.", "quantifier": "every file, tree shape and encryptor; every sequence of builds with any options", "why_tests_cant": "nonce reuse in one code path among all tree shapes would have to be observed", "anchors": ["ccnpy/flic/ManifestFactory.py:_encrypt", "ccnpy/flic/tree/TreeBuilder.py:_build_packet"]}
{"id": "C58", "title": "A build stored in a directory can be read back", "statement": "If the packets of a successful build with a hash or prefix schema are written by a flat PacketDirectoryWriter, a Traversal with a PacketDirectoryReader on that directory, started from the name and hash of the root manifest, ends without exception, writes exactly the bytes of the file and visits every packet once. With a segmented schema the traversal always raises ValueError after the root manifest and writes nothing, because a name with a manifest or chunk id is not equal to its own parse.", "quantifier": "every file, options, encryptor, signer, key store that has the keys, and every earlier content of the directory", "why_tests_cant": "all combinations of tree shape, schema, encryption and names", "anchors": ["ccnpy/flic/tree/TreeIO.py:PacketDirectoryWriter", "ccnpy/flic/tree/TreeIO.py:PacketDirectoryReader", "ccnpy/flic/tree/Traversal.py:Traversal"]}
{"id": "C59", "title": "A store cannot make a receiver write a wrong file", "statement": "A traversal started from the hash of a root manifest, over any reader that only answers with packets of the requested hash, has at every end of its run, with or without exception, written an initial part of the original file; if it ends without exception it has written all of it; and it has visited at most as many packets as the build wrote. The memory stores are such readers whatever packets are put into them. PacketDirectoryReader is not: after replacing one file the traversal of a signed and encrypted manifest can end without exception and have written other bytes.", "quantifier": "every build, every reader behaviour short of a SHA-256 second preimage, every requested name and recursion limit", "why_tests_cant": "the reader is adversarial and unbounded", "anchors": ["ccnpy/flic/tree/Traversal.py:Traversal", "ccnpy/flic/tree/TreeIO.py:PacketMemoryReader", "ccnpy/flic/tree/TreeIO.py:PacketDirectoryReader"]}
{"id": "C60", "title": "Decryption accepts only authenticated manifests", "statement": "decrypt_manifest succeeds only if the cipher, with the decryptor's key, salt and nonce as IV and the whole security context as associated data, accepts encrypted node and tag; the result is the node in the plaintext. If the tag is invalid it raises DecryptionError. With a cipher that accepts under the key only what was sealed with it, a manifest that decrypts has the security context and the encrypted bytes of a manifest that was made, and decrypts to the node of that manifest. The border between encrypted node and tag is not protected: moving bytes across it does not change the outcome.", "quantifier": "every received manifest, key, salt, set of manifests made with the key", "why_tests_cant": "all tampered manifests", "anchors": ["ccnpy/flic/aeadctx/AeadImpl.py:decrypt", "ccnpy/flic/RsaOaepCtx/RsaOaepImpl.py", "ccnpy/crypto/AeadKey.py:decrypt"]}
{"id": "C61", "title": "Which packets of a build are encrypted and signed", "statement": "With an encryptor, the node of every manifest packet a build writes is encrypted under the encryptor's key number and with a tag, and the wrapped content key travels only in the root manifest; data objects are never encrypted. With a signer, the root manifest carries the validation sections of that signer, which whoever has the key accepts, and no other packet carries any. Without them manifests are in the clear and unsigned. This holds for all packets written by every run, also one that raises.", "quantifier": "every file, options and outcome of the build", "why_tests_cant": "all tree shapes, encryptors and failures", "anchors": ["ccnpy/flic/ManifestFactory.py", "ccnpy/flic/ManifestTree.py:ManifestTree", "ccnpy/flic/tree/TreeBuilder.py"]}
{"id": "C62", "title": "Least waste search", "statement": "For 1 <= n < 2^52 chunks and 2 <= p < 2^52 pointers per manifest, minimize_waste returns exactly the splits of the pointers (with the least number of interior manifests that has room for n chunks) that leave the fewest pointers unused, ordered by increasing number of indirect pointers, and never an empty list. minimize_waste_min_height returns the first of least height among these; it always succeeds for n < 2^32 - 1 and p <= 2^20, and raises AssertionError when every height is 2^32 - 1 or more, which happens for long chains. For n = 1 the only solution has -1 interior manifests.", "quantifier": "every n, p in range", "why_tests_cant": "all numbers of chunks and pointers, the optimum over all splits", "anchors": ["ccnpy/flic/tree/TreeOptimizer.py:minimize_waste", "ccnpy/flic/tree/TreeOptimizer.py:minimize_waste_min_height", "ccnpy/flic/tree/OptimizerResult.py"]}
{"id": "C63", "title": "Names from URIs", "statement": "str.encode and strict bytes.decode for UTF-8 are inverse to each other. Name.from_uri('ccnx:/s1/s2/...') gives exactly the name with the name segments s1, s2, ... in UTF-8 (or OverflowError when they do not fit a TLV), for segments that are not empty, not '.', and have no '/', '?', '#', tab or line end; different lists of such segments give different names. Whatever from_uri returns has only non-empty UTF-8 name segments and survives its own encoding; any other scheme than ccnx raises AssertionError. What follows '?' or '#', the host of '//host', and the first segment of a path without leading '/' are silently dropped, and as_uri is no inverse: reading its result back never gives the same name. A text can be encoded exactly when it has no surrogates, and the scheme may be written in any case of letters.", "quantifier": "every URI text, every list of segments", "why_tests_cant": "all code points and all texts", "anchors": ["ccnpy/core/Name.py:from_uri", "ccnpy/core/Name.py:as_uri", "ccnpy/core/Name.py:NameComponent.__repr__"]}
{"id": "C64", "title": "Link files of the directory writer", "statement": "With link_named_objects, a successful put of a named content object leaves, under the link file name of its name, a packet signed by the configured signer (CRC-32C if none) that parses to a link content object with that name whose payload is a link with that name and the hash of the packet, until a packet whose name has the same link file name is put. All files of the store are packets under their hash or such links. Names whose segments are UTF-8 text without '/', '?', '#', '~', tab and line ends, and chunk or manifest ids, have different link files when they differ; other names can share one (text after '?' or '#' is cut off, '~' stands for '/'), and then the later put replaces the link.", "quantifier": "every history of puts, every signer, every name", "why_tests_cant": "all histories and all pairs of names", "anchors": ["ccnpy/flic/tree/TreeIO.py:PacketDirectoryWriter._write_link", "ccnpy/flic/tree/TreeIO.py:PacketDirectoryWriter._create_link", "ccnpy/flic/tree/TreeIO.py:get_link_name"]}
{"id": "C65", "title": "Counters of the directory writer", "statement": "After any sequence of successful puts total_bytes_by_packet is the number of bytes of all packets put; total_bytes_by_hash counts the first packet of each hash; cnt_manifest, bytes_manifest, cnt_data and bytes_data count those of them with and without payload type manifest. Link files are not counted.", "quantifier": "every sequence of successful puts", "why_tests_cant": "all histories with all patterns of repeated packets", "anchors": ["ccnpy/flic/tree/TreeIO.py:PacketDirectoryWriter.put"]}
{"id": "C66", "title": "Stream of the network writer", "statement": "The bytes the network writer sends can be cut in exactly one way into packets by the packet length field, and this gives the wire images of the packets that were put, in order, each of which parses back; put never fails for packets the package makes, and always raises AttributeError after close.", "quantifier": "every list of packets", "why_tests_cant": "all lists of packets, uniqueness of the cut", "anchors": ["ccnpy/flic/tree/TreeIO.py:PacketNetworkWriter.put", "ccnpy/flic/tree/TreeIO.py:PacketNetworkWriter.close"]}
{"id": "C67", "title": "manifest_writer can be read back", "statement": "A successful run of manifest_writer with a hashed or prefixed schema leaves a directory from which a Traversal by name and root hash, with the key store create_keystore makes from matching arguments (the same AES key, mode, salt and key number; or the private half of the wrapping key; and the signing key's public half), writes back exactly the file and visits every packet once. For the segmented schema the Traversal fails with ValueError after the root manifest and writes nothing. The default key number, Python's hash of the key, makes the writer fail when negative, and a reader given the key without --key-num always fails. The writer succeeds only with both prefixes for the segmented schema and none for the others. The options of the tree are exactly those given: names, prefixes and locators are those of the URIs, expiry times those given, the degree bounds the pointers of every manifest, the root manifest is signed with the key if one is given, and the encryptor has the given key, mode, number, salt and KDF or a fresh wrapped key.", "quantifier": "every argument vector, file content, fresh randomness, clock", "why_tests_cant": "all argument combinations, file contents and sizes, random values", "anchors": ["ccnpy/apps/manifest_writer.py", "ccnpy/apps/cli_utils.py:create_keystore", "ccnpy/apps/cli_utils.py:encryptor_from_cli_args"]}
{"id": "C68", "title": "manifest_reader never outputs anything", "statement": "Whatever its arguments and whatever the input directory holds, a run of manifest_reader ends in an exception and writes no byte of the application data. Once the keys and the name are read it is TypeError with a hash restriction (the text is passed on as text); without one it is NotImplementedError when the directory has no file for the name and NameError when the file is there and can be read.", "quantifier": "every argument vector and every directory content", "why_tests_cant": "all directories and arguments", "anchors": ["ccnpy/apps/manifest_reader.py", "ccnpy/flic/tree/TreeIO.py:PacketDirectoryReader.get"]}
{"id": "C69", "title": "What packet_reader shows", "statement": "packet_reader says verified exactly for the packets with a validation section that PacketValidator accepts with the same key store; packets without validation, and packets signed with a key the store does not have (which PacketValidator refuses), are shown as not verified. For every packet a manifest_writer run wrote and matching arguments, the packet shown is the packet written, only the root counts as verified and only if a key was given, and of an encrypted manifest the node that was encrypted is shown, except for manifests below the root of a tree whose key is known only from the wrapping. Without the AES key an AEAD manifest makes the program fail with AttributeError, and a manifest with a wrapped key context without the wrapped key with ValueError.", "quantifier": "every packet and key store; every writer run and every packet of it", "why_tests_cant": "all packets, keys, trees", "anchors": ["ccnpy/apps/packet_reader.py", "ccnpy/apps/packet_utils.py:validate_packet", "ccnpy/apps/packet_utils.py:decrypt_manifest"]}
{"id": "C70", "title": "The graph of a traversal is the tree that was visited", "statement": "A traversal with build_graph=True that succeeds visits and outputs what the one without a graph does, and the graph then has one entry for each hash of a packet visited, describing the last packet visited with that hash: manifest or data, its label and, for a manifest, the pointers of its (decrypted) node in order; if the reader answers with packets of the hash asked for, every pointer leads to an entry. However a ManifestGraph is used (add, pause, resume, draw in any order), it holds for each hash the last record added while not paused, and the drawing is always up to date: one node for each short name, colored and labelled by the last entry of that short name, and an edge for each pointer. After a traversal every node drawn has a color and a label, so that plot() finds them, and if no two hashes seen have the same short name the nodes are exactly the entries. The short name is the first three bytes of the hash (the code means four), so that two objects can be drawn as one node; a pointer to a packet never added makes plot() raise KeyError; and a name that has no label (no segments, or a segment that is not UTF-8) makes a traversal fail that succeeds without a graph, and only that. The label is the last number of the name in decimal if the name ends with a manifest id or a chunk id, otherwise the URI of the name, and without a name the short name.", "quantifier": "every reader, store content, key store and tree; every sequence of operations on a graph", "why_tests_cant": "all trees and stores, repeated packets, all orders of add, pause and draw", "anchors": ["ccnpy/flic/tree/ManifestGraph.py", "ccnpy/flic/tree/Traversal.py:preorder", "ccnpy/flic/tlvs/Node.py:hash_values"]}
{"id": "C71", "title": "A build counts two manifests too many and draws what it wrote", "statement": "A build with a ManifestGraph or with the statistics of the factory that returns has done exactly what the build without them does; builds that fail also fail alike if there is no graph or if the names of the manifests have labels. The manifest count that build() prints is the number of manifests written plus two, and the bytes are those of the manifests written plus those of the two reference manifests with which the factory measured how many pointers fit into one. The graph then has exactly one entry for the hash of each packet written: data objects with their short hash as label and no pointers, manifests with the label of their name and the pointers of their node in order; everything pointed to was written by the same build, entries of other hashes in the graph stay as they were, and plot() finds the color and the label of each node. A root name without segments makes a build with a graph fail that succeeds without one. If the tree parameters cannot be found the graph stays paused, and what is added to it later is not recorded.", "quantifier": "every data, options, name context, graph and counter state before the build", "why_tests_cant": "all trees, options and graphs; repeated packets and earlier entries", "anchors": ["ccnpy/flic/ManifestFactory.py:build_packet", "ccnpy/flic/tree/TreeBuilder.py:TreeBuilder", "ccnpy/flic/ManifestTree.py:ManifestTree", "ccnpy/flic/tree/ManifestSizeCalculator.py", "ccnpy/flic/tree/ManifestGraph.py"]}
{"id": "C72", "title": "Options reach the packets", "statement": "Every data object, manifest and root manifest of a successful build has the expiry time the options give for its kind, and no manifest has a final chunk id. The root manifest, and no other, defines the name constructors: one for manifests and one for data, or a single one if they agree, with the schema, locators (hashed) or prefix (prefixed, segmented) and suffix type of the options; every pointer below carries the id of the constructor for its kind. Locators given with the prefixed or segmented schema are dropped.", "quantifier": "every file, options and successful build", "why_tests_cant": "all option combinations and tree shapes", "anchors": ["ccnpy/flic/name_constructor/NameConstructorContext.py", "ccnpy/flic/ManifestFactory.py", "ccnpy/flic/name_constructor/SchemaImpl.py:SchemaImpl", "ccnpy/flic/ManifestTree.py:ManifestTree"]}
{"id": "C73", "title": "Option texts mean what they say", "statement": "--enc-key takes exactly the texts that spell bytes in hexadecimal (pairs of digits, blanks between the pairs, an optional 0x in front) and gives these bytes; --key-num, --salt and --kdf-salt take exactly Python's integer literals (decimal without leading zeros, 0x, 0o, 0b, underscores between digits, sign, blanks around) and give their value; -d (tree degree) and -s (packet size) take exactly decimal numbers, leading zeros allowed, and without -s packets have up to 1500 bytes; --aes-mode and --kdf take exactly GCM, CCM and the three HKDF names in any case, and the mode is GCM by default; --kdf-info takes bytes in hexadecimal after 0x and any other text as its UTF-8 bytes, and --kdf-uuid overrides it. Anything else ends in a usage message, except a negative key number or a KDF info of more than 65535 bytes, which end in OverflowError. str(n) and bytes.hex() are read back as n and the bytes. A reader whose option texts mean the same key, mode and salt as the writer's, which gives the writer's key number (by default the hash of the key) in any spelling and has the matching RSA keys, reads back the file that manifest_writer wrote.", "quantifier": "every text for every option, every file", "why_tests_cant": "infinitely many spellings; all combinations with all files", "anchors": ["ccnpy/apps/cli_utils.py:_str_to_array", "ccnpy/apps/cli_utils.py:add_encryption_cli_args", "ccnpy/apps/manifest_writer.py", "ccnpy/flic/tlvs/KeyNumber.py", "ccnpy/crypto/HpkeKdfIdentifiers.py", "ccnpy/flic/tlvs/KdfInfo.py"]}
{"id": "C74", "title": "Without the key nothing is read", "statement": "Let a tree be built with encryption and let a reader have no key store, or no AES key under the number that arrives (the key number modulo 2^64) and no private key for the wrapped key, or under that number a key that is useless for it (for the other cipher, or one with which the cipher rejects everything sealed by the sender). Then every traversal that starts at any manifest of the build raises after fetching one packet and writes nothing: AttributeError without key store, KeyNumberNotFoundError without key, DecryptionError with a useless key, ValueError or KeyIdNotFoundError for a wrapped key that cannot be unwrapped. This happens to the legitimate reader too if --key-num does not fit in 64 bits: with the same options it finds no key, and if the number that arrives is below 2^32 the key opens nothing under any number, because the context that is sent is not the one that was authenticated.", "quantifier": "every encrypted build, whether it returns or raises, every reader of packets, every key store", "why_tests_cant": "all trees and key stores; tests try one wrong key on one manifest", "anchors": ["ccnpy/flic/tree/Traversal.py:Traversal", "ccnpy/flic/tree/DecryptorCache.py:DecryptorCache", "ccnpy/flic/aeadctx/AeadImpl.py", "ccnpy/flic/RsaOaepCtx/RsaOaepImpl.py", "ccnpy/crypto/InsecureKeystore.py", "ccnpy/flic/tlvs/KeyNumber.py"]}
{"id": "C75", "title": "Equality of packets, links, pointers and manifests", "statement": "p == q for two packets yields True exactly when their headers, validation payloads and wire images agree and their content objects agree field by field, names with the Python types of their components and expiry times as numbers; for packets made from content objects this is agreement of the fields and of the validation sections. It is an equivalence; equal packets have the same bytes and hash. It raises nothing but AttributeError, for packets made by the package exactly when both have the same length and the first differing field of the content objects is a name, payload type or expiry time that only one of them has. A packet equals the result of parsing its own wire image exactly when no component of its name is held as an array (chunk ids and manifest ids made by the package); otherwise the answer is False, never an exception, and two parses of one wire image are equal. Two links or pointer lists just made are equal exactly when they have the same parts, but a link from which a KeyLink was made, and a pointer list that was iterated over, are unequal to every one just made. A manifest equals the result of parsing its own bytes.", "quantifier": "every pair of packets, content objects, links, pointer lists and manifests", "why_tests_cant": "pairs of objects in every combination of present and absent fields; equality depends on what happened to the objects before", "anchors": ["ccnpy/core/Packet.py:Packet.__eq__", "ccnpy/core/ContentObject.py:ContentObject.__eq__", "ccnpy/core/ValidationAlg.py:__eq__", "ccnpy/core/Timestamp.py:Timestamp.__eq__", "ccnpy/core/Link.py:Link", "ccnpy/core/KeyLink.py:KeyLink", "ccnpy/flic/tlvs/Pointers.py:Pointers", "ccnpy/flic/tlvs/Manifest.py:Manifest.__eq__"]}
{"id": "C76", "title": "What can be printed", "statement": "A packet can be printed (packet_reader, str) exactly when: its name and every name inside (locators, key links, the link of a link object) has only UTF-8 name segments and chunk and manifest ids of at most 4300 digits; its times lie before the end of the year 2147485547; a manifest object has a payload and a link object a payload that is a link; every hash group of a manifest has pointers, every number at most 4300 digits, and the encryption mode is one of 1 to 4; and, in the short form, an object of another type has a payload. A payload that is not a manifest does not prevent printing. packet_reader ends as it would without printing whenever the packet and the decrypted manifest can be printed. Every packet that a build sends, with names and locators that can be printed, can be printed by its receiver in both forms, and packet_reader shows every packet that manifest_writer wrote. Printing raises only the listed exceptions, but there are packets that Packet.deserialize accepts and that cannot be printed. The messages that a failing traversal prints change neither its effects nor that it fails; the exception is another one only if a message cannot be made.", "quantifier": "every packet and manifest; every build and every run of manifest_writer; every traversal with any exceptions from message texts", "why_tests_cant": "received packets are arbitrary; each field has its own way to make printing fail, and the failure replaces the program's real result", "anchors": ["ccnpy/core/Packet.py:Packet.__repr__", "ccnpy/core/ContentObject.py:ContentObject.__repr__", "ccnpy/core/Timestamp.py:Timestamp.__repr__", "ccnpy/core/NameComponent.py:NameComponent.__repr__", "ccnpy/flic/tlvs/Node.py:Node.__repr__", "ccnpy/flic/tlvs/AeadMode.py:AeadMode", "ccnpy/apps/packet_reader.py:PacketReader.read", "ccnpy/flic/tree/Traversal.py:Traversal.preorder"]}
{"id": "C77", "title": "Keys are never derived", "statement": "KDF.derive hands key, length, salt and info to HKDF with the hash named by the identifier, and raises ValueError for anything that is not an identifier. _derive_key passes the number of the algorithm instead of the identifier: with KDF data no key is ever derived (ValueError, or AssertionError when the data has no info), whatever the key, key number, salt and info; without KDF data the key is returned unchanged. The fixed info that would be hashed determines key number, mode and KDF info. copy_with_name keeps the algorithm and sets the info to the encoded name.", "quantifier": "every HKDF, key, parameters, KDF data and name", "why_tests_cant": "the failure is independent of every input; injectivity is about all pairs of parameters", "anchors": ["ccnpy/crypto/KDF.py:KDF.derive", "ccnpy/flic/aeadctx/AeadImpl.py:AeadImpl._derive_key", "ccnpy/flic/tlvs/KdfData.py:KdfData.copy_with_name"]}
{"id": "C78", "title": "Iteration", "statement": "TLVs, hash values, timestamps, links and pointer lists are their own iterators: what next() answers is decided by the number of calls since the last iter(), whatever was done before, and a loop always gives all items in order. Two nested loops over one such object are not independent: only the pairs with the first item are seen. Iterators over a node are independent: a loop gives what C18 says, nested loops give all pairs, and an iterator that has ended or failed does so again. The reverse iterators of FileChunks and FileMetadata give the items present when they were made, last first, even if the loop appends.", "quantifier": "every list of items, every history of calls, every node", "why_tests_cant": "histories of calls of any length; nested loops over lists of any length", "anchors": ["ccnpy/core/Tlv.py:Tlv.__iter__", "ccnpy/flic/tlvs/Pointers.py:Pointers.__next__", "ccnpy/flic/tlvs/Node.py:Node.NodeIterator", "ccnpy/flic/tree/FileChunks.py:FileChunks.ReverseIterator", "ccnpy/flic/name_constructor/FileMetadata.py:FileMetadata.ReverseIterator"]}
{"id": "C79", "title": "Key files and passwords", "statement": "RsaKey reads a PEM by its first line: three kinds of private key, a public key (for which the password does not matter), anything else RuntimeError. A private key saved with a non-empty password is read back with it; saving needs a private key and a password of bytes. A generated key has its private part and its public PEM the same key id. On the command line passwords are texts, which the library refuses: a key file that needs a password can never be used to sign, verify or unwrap, whatever is given or typed (TypeError). A private key in the clear can be used exactly when the password is missing or empty; readers never ask. Apart from that, key store and signer are those for the keys in the files.", "quantifier": "every file content, password, option and typed text, every PEM library", "why_tests_cant": "all contents and passwords; that no password at all works", "anchors": ["ccnpy/crypto/RsaKey.py:RsaKey.__init__", "ccnpy/crypto/RsaKey.py:RsaKey.save_private_key", "ccnpy/crypto/RsaKey.py:RsaKey.load_pem_key", "ccnpy/apps/cli_utils.py:fixup_key_password", "ccnpy/apps/cli_utils.py:create_keystore"]}
{"id": "C80", "title": "Streams, metadata and reused name contexts", "statement": "chunk_data makes one data object per non-empty read, however short, numbered on from the counter of the name context, with FinalChunkId on the last one only; when it raises, the packets of the k pieces before have been put and k+1 numbers are used up, and a read that raises loses the piece read before it. A byte string is the special case of full reads. Chunking first and building from the FileMetadata gives the same packets as building from the stream. A tree built from any stream and any used context can be read back as the bytes of the stream, has no dangling pointers, is protected and resists a wrong store as in C35-C37, C59 and C61. With one context for several streams, even when some of the builds fail, the data objects have strictly growing numbers, without gaps when all succeed, and, in the segmented schema, distinct names; manifest names, however, start over and repeat.", "quantifier": "every sequence of read results, options, counter value, number of streams", "why_tests_cant": "all ways a stream may be cut or fail, all counters and sequences of builds", "anchors": ["ccnpy/flic/name_constructor/SchemaImpl.py:SchemaImpl.chunk_data", "ccnpy/flic/name_constructor/SchemaImpl.py:SchemaImpl._get_and_increment_next_chunk_id", "ccnpy/flic/ManifestTree.py:ManifestTree.__init__", "ccnpy/flic/ManifestTree.py:ManifestTree.name_context", "ccnpy/flic/name_constructor/FileMetadata.py:FileMetadata"]}
{"id": "C81", "title": "Histories of calls on builders and names; accessors", "statement": "After any sequence of calls a hash group builder holds the pointers of the first max_direct direct and max_indirect indirect calls, those prepended (latest first) before those appended, with their counts and sizes; the next call raises AssertionError, changing nothing, exactly when the builder is full. A hash group made by the builder keeps its wire format, but its pointers are those the builder has later: they agree with the wire exactly as long as no further call succeeds. A name made of a list has the wire format of that list; Name() has none of the accessors (TypeError). A name never changes on the wire; Name.append copies, so a name whose list the caller does not hold never changes its components, while one made of a list the caller holds follows the list and stops agreeing with its own wire format. name[i] counts from either end and raises IndexError outside; component(i) rejects negative numbers. name[i] after the wire is always text: a chunk or manifest number, an array before, becomes a character below 128 and raises from 128 to 255. Node.node_locator raises for every node with locators and Manifest.interest_list for every manifest.", "quantifier": "every sequence of calls, every limit, every index, every name", "why_tests_cant": "all interleavings of calls on objects that share a list, all component values", "anchors": ["ccnpy/flic/HashGroupBuilder.py:HashGroupBuilder", "ccnpy/core/Name.py:Name.append", "ccnpy/core/Name.py:Name.__getitem__", "ccnpy/core/Name.py:Name.component", "ccnpy/core/Name.py:Name.count", "ccnpy/flic/tlvs/Node.py:Node.node_locator", "ccnpy/flic/tlvs/Manifest.py:Manifest.interest_list"]}
{"id": "C82", "title": "Equality of nodes and of the parts of a manifest", "statement": "Group data objects are equal exactly when all six fields agree, algorithms of the digests included, although digests alone compare equal whatever their algorithm; the comparison never raises. Hash groups, name constructor definitions and security contexts are equal exactly when they send the same bytes (with numbers below 2^64 hash groups exactly when they have the same parts; beyond that two equal groups can hold unequal group data), vendor tags exactly when their fields agree. Two nodes are equal exactly when they send the same bytes and both have node data or neither, with the same subtree size and the same links; comparing them raises AttributeError exactly when only one has node data, or the sizes and digest bytes agree and only one has locators, and raises nothing else. Equality of nodes is an equivalence, and a == b and b == a always agree, exceptions included. A node equals what its own bytes are parsed to exactly when it has no padding and no component of a locator name is held as an array; otherwise the answer is False; so two manifests can be equal while the nodes in them are not. Segmented and hash schemas are equal exactly when their fields agree with their Python types, prefix schemas exactly when they send the same bytes, schemas of different kinds never; comparing two segmented or two hash schemas raises AttributeError exactly when only one has a name, or the names agree and only one has locators, and prefix schemas never raise.", "quantifier": "every pair of group data, hash groups, schemas, definitions, vendor tags, node data, nodes and security contexts that can be constructed", "why_tests_cant": "pairs of objects in every combination of present and absent fields, numbers of any size, padding and Python types of name components", "anchors": ["ccnpy/flic/tlvs/GroupData.py:GroupData.__eq__", "ccnpy/flic/tlvs/HashGroup.py:HashGroup.__eq__", "ccnpy/flic/tlvs/Node.py:Node.__eq__", "ccnpy/flic/tlvs/NodeData.py:NodeData.__eq__", "ccnpy/flic/tlvs/Locators.py:Locators.__eq__", "ccnpy/flic/tlvs/Locator.py:Locator.__eq__", "ccnpy/flic/tlvs/NcSchema.py:NcSchema.__eq__", "ccnpy/flic/tlvs/NcDef.py:NcDef.__eq__", "ccnpy/flic/tlvs/Vendor.py:Vendor.__eq__", "ccnpy/flic/tlvs/AeadCtx.py:AeadCtx.__eq__", "ccnpy/flic/tlvs/RsaOaepCtx.py:RsaOaepCtx.__eq__"]}
{"id": "C83", "title": "Expiry times given as text", "statement": "A text YYYY-MM-DD or YYYY-MM-DDTHH:MM:SS, with or without a fraction and an offset Z or +HH:MM, is read field by field (fractions cut to microseconds), has one reading, and raises ValueError exactly when a field is out of range of the Gregorian calendar, the clock, or an offset of less than a day. With an offset it denotes one instant, counted in days of the calendar from 1970; two texts for the same instant give the same expiry time. From 1970 on the time in the packet is exact for whole seconds, and for whole milliseconds from November 2004 to January 2038; other whole milliseconds may be sent one too early (they are in 2039), other times are at most 1.6 ms early and 0.6 ms late. A time two or more milliseconds before 1970 is not refused but sent as an unsigned number close to 2^64, 580 million years ahead. Without an offset the same text means different times on machines in different time zones.", "quantifier": "every text of the documented form, every time zone and every treatment of other texts by the library", "why_tests_cant": "all dates from year 1 to 9999 with all offsets and fractions of any length; tests pick a few", "anchors": ["ccnpy/apps/manifest_writer.py:ManifestWriter._parse_time", "ccnpy/core/Timestamp.py:Timestamp.from_datetime", "ccnpy/core/Timestamp.py:Timestamp.milliseconds", "ccnpy/core/ExpiryTime.py:ExpiryTime"]}
{"id": "C84", "title": "Random keys, nonces and content keys", "statement": "AeadGcm.generate and AeadCcm.generate return a key of the class and size asked for, made of the bytes the random source returned, whose AEAD mode names that class and size; any size but 128 and 256 bits raises ValueError. A key built by hand can be used for manifests exactly when generate could have made it (the constructors take keys of 16, 24 and 32 bytes and raise ValueError for others; a key of 24 bytes has no mode). nonce(bits) returns the whole bytes that fit, so fewer bits than asked for when bits is not a multiple of 8 and none below 8; only a negative number raises (ValueError). The IV of a manifest is 12 bytes with or without salt, and two draws give the same IV exactly when they give the same nonce. With a CCM key the documented nonce sizes 128 and 256 cannot be used. A new content key has 32 bytes of AES-GCM, a 32-bit salt and a 32-bit number, each from its own draw; its parameters are never refused, so only the wrapping can fail, which without KDF data it does with ValueError for RSA keys of up to 808 bits; the holder of the private key gets salt and key back.", "quantifier": "every random source returning the length asked for, every number of bits, every key, salt, RSA key and set of primitives", "why_tests_cant": "randomness: tests see one draw; sizes of any integer, keys of every size", "anchors": ["ccnpy/crypto/AeadKey.py:AeadKey.nonce", "ccnpy/crypto/AeadKey.py:AeadGcm.generate", "ccnpy/crypto/AeadKey.py:AeadCcm.generate", "ccnpy/flic/aeadctx/AeadImpl.py:AeadImpl._generate_nonce", "ccnpy/flic/RsaOaepCtx/RsaOaepEncryptor.py:RsaOaepEncryptor.create_with_new_content_key"]}
