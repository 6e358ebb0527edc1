# Formal model of ccnpy: design

The model is a shallow, executable Gallina translation of the Python code at
the pinned commit, function by function, with Python exceptions as values.
Theorems hold for all inputs, all states and all executions; `Example`s beside
them only show that the hypotheses can be met by a case that does something.

## Files (rocq/theories)

Model (definitions only, each with the lines of /repo it stands for):

| file | code modelled |
|------|---------------|
| Py.v | language: exceptions, result monad, byte lists, slices, folds |
| Tlv.v | core/Tlv.py, core/TlvType.py |
| Float.v | CPython float division and multiplication (IEEE-754 binary64) on integers |
| Core.v | core/: hash values, names, links, timestamps, content objects, validation sections, fixed header, packets |
| Flic.v | flic/tlvs/*, flic/aeadctx/AeadData.py, flic/RsaOaepCtx/{RsaOaepWrapper,HashAlg,WrappedKey}.py |
| Crypto.v | crypto/*, core/PacketValidator.py, flic/aeadctx/*, flic/RsaOaepCtx/*, flic/tree/DecryptorCache.py |
| Optimizer.v | flic/tree/TreeOptimizer.py, OptimizerResult.py, ManifestIdFactory.py |
| Tree.v | flic/name_constructor/*, flic/HashGroupBuilder.py, flic/ManifestFactory.py, flic/ManifestTree.py, flic/ManifestTreeOptions.py, flic/tree/{HashGroupBuilderPair,ManifestSizeCalculator,TreeParameters,TreeBuilder}.py |
| Store.v | flic/tree/TreeIO.py: memory and directory writers and readers |
| Traversal.v | flic/tree/Traversal.py |
| Graph.v | flic/tree/ManifestGraph.py up to the networkx graph it makes, flic/tree/Traversal.py with build_graph |
| GraphBuild.v | flic/ManifestFactory.py, flic/tree/ManifestSizeCalculator.py, flic/tree/TreeBuilder.py and flic/ManifestTree.py again, with the ManifestGraph and the statistics counters |
| Net.v | flic/tree/TreeIO.py: network writer |
| Uri.v | core/Name.py: from_uri, as_uri, with UTF-8, urlparse and PurePath as in Python 3.12 |
| Apps.v | apps/: manifest_writer, manifest_reader, packet_reader, packet_utils and cli_utils, from parsed arguments on |
| Cli.v | apps/cli_utils.py, apps/manifest_writer.py: from the texts of the options to the arguments, with int() and bytes.fromhex() |
| Repr.v | `__repr__` of everything a packet contains, packet_reader with its printing, the messages of a failed traversal: whether a text can be made, and the exception if not |
| Kdf.v | crypto/KDF.py, flic/aeadctx/AeadImpl.py `_derive_key`, flic/tlvs/KdfData.py `copy_with_name` (nothing calls them) |
| Iter.v | the iterators: core/{Tlv,HashValue,Timestamp,Link}.py, flic/tlvs/{Pointers,Node}.py, flic/tree/FileChunks.py, flic/name_constructor/FileMetadata.py, call by call |
| Pem.v | crypto/RsaKey.py: PEM files; apps/cli_utils.py: passwords and key files |
| Stream.v | flic/name_constructor/SchemaImpl.py `chunk_data` and flic/ManifestTree.py again, on any stream or FileMetadata and with a given name context |
| Shared.v | flic/HashGroupBuilder.py and core/Name.py again, as histories of calls on objects that share a list; core/Name.py `count`, `component`, `__getitem__`; flic/tlvs/Node.py `node_locator`; flic/tlvs/Manifest.py `interest_list` |
| Eq.v | `__eq__` of Packet, ContentObject, FixedHeader, the validation algorithms, Timestamp, Link, Pointers and Manifest, with the iteration offsets of Link and Pointers |
| Iso.v | the expiry options of apps/manifest_writer.py: `_parse_time`, Timestamp.from_datetime with sign and fraction, `datetime.fromisoformat` for the documented form |
| KeyGen.v | crypto/AeadKey.py `generate` and `nonce`, the nonce of flic/aeadctx/AeadImpl.py, `RsaOaepEncryptor.create_with_new_content_key` |
| NodeEq.v | `__eq__` of GroupData, HashGroup, Locator, Locators, the name constructor schemas, NcDef, Vendor, NodeData, Node, AeadData, AeadCtx and RsaOaepCtx |

Specifications, independent of how the code works: Spec.v (framing), WireSpec.v
(wire format of manifests with literal type numbers), TreeSpec.v (what a
manifest tree is), StoreSpec.v (what a store does), TraversalSpec.v (which
packets a traversal visits), EndSpec.v (whole builds, readers, key stores).

Lemmas: TlvProofs, FloatProofs, CoreProofs, FlicProofs, CryptoProofs,
OptimizerProofs, TreeProofs, TreeFacts, ChunkProofs, SizeProofs, BuildProofs,
SizeNode, BuildTotal, StoreProofs, TraversalProofs, EndProofs, ReadProofs.

Claims: PropsTlv (C01-C05), PropsCore (C06-C10, C19, C20), PropsFlic (C10-C18,
C53), PropsWire (layouts for C08, C09), PropsExists (what can be built: C08, C09,
C15, C16), PropsCrypto (C21-C23, C45-C51, C55, C56), PropsSealing (what can be
sealed: C45, C47, C48), PropsOptimizer (C27, C28), PropsTree (C28-C34, C37-C39, C57), PropsChunk
(C24-C26), PropsSize (C40, C41), PropsBuild (C52), PropsStore (C42, C54),
PropsTraversal (C43, C44), PropsEnd (C35-C37), PropsDir (C58), PropsIntegrity
(C59), PropsAuth (C60, C61), PropsNonce (C57 for whole
builds), PropsWaste (C62), PropsUri (C63), PropsLink (C64,
C65), PropsNet (C66), PropsApps (C67-C69), PropsNames (C33 with the names
spelled out), PropsGraph (C70), PropsGraphBuild (C71), PropsOptions (C30 with
the degree option, C72), PropsWriter (C67 in terms of the packets written),
PropsCli and PropsCliRead (C73), PropsNoKey (C74), PropsEq (C75), PropsRepr
(C76), PropsKdf (C77), PropsIter (C78), PropsPem
(C79), PropsStream (C80), PropsShared (C81), PropsNodeEq (C82),
PropsIso (C83).
MANIFEST.json has the theorem names of each claim.

Tests, not theorems: Vectors.v runs the repository's own tests (/repo/tests) on
the model, with SHA-256 and CRC-32C computed by Digests.v. They count as
evidence that the model is the code, and nothing in MANIFEST.json refers to
them. The strongest is test_ManifestTree.py test_segmented_tree: building from
8000 bytes gives the four SHA-256 values written in that test, each of which
depends on every byte of the packets below it. Left out are the tests that need
AES or RSA themselves, those of printing and drawing, and the trees of 1000 and
more chunks. Some tests without a digest use a quicker digest or other data of
the same length; the comments say where.

## Conventions

* A byte is a `Z`; `bytes_ok l` says all entries are in 0..255. `array("B", l)`
  raises OverflowError exactly when that fails.
* `res A := Ok a | Err e`; `e` names the Python exception class.
* A Python object is a record of the plain data given to its constructor.
  Constructors that serialize are functions that may return `Err`.
* Code with state is `st S A := S -> res A * S`: the state survives an
  exception, so what was written before it stays visible.
* Loops driven by buffer offsets run on fuel; `Err OutOfFuel` is a value of its
  own. C10 shows it never occurs in decoders, C28 not in the tree builder, C24
  not in chunking. In the traversal it stands for RecursionError, and C44_fuel
  says that more fuel never changes another outcome.
* External functions are parameters, so every theorem is quantified over them:
  the record `prims` (SHA-256, CRC-32C, RSA, OAEP, AES-GCM/CCM), `clog` (the
  logarithm with its rounding to an integer), `rnd` (os.urandom), `now`
  (time.time), `uri_path` (urlparse). Facts about them are visible hypotheses:

| hypothesis | meaning | used for |
|---|---|---|
| `sig_correct` | a signature made with a key verifies with its public key | C21, C35, C36, C58 |
| `sig_recovers` | a signature fits one digest (as PKCS#1 v1.5 does) | C23 |
| `aead_correct`, `oaep_correct` | decryption inverts encryption | C45, C48, C35, C36, C58, C59 |
| `accepts_only` | the cipher accepts under a key only what was sealed with it | C60 |
| `sha_ok` | SHA-256 gives 32 bytes | C25, C52 |
| `seal_adds_tag` | AEAD output is 16 bytes longer than its input | C40, C41, C52 |
| `seal_total` | sealing fails or not independently of IV, text and associated data | C52 |
| `same_nonce_len` | os.urandom returns the length asked for | C40, C41, C52 |
| `source` | os.urandom returns as many bytes as asked for | C84 |
| `ccm_sizes` | AES-CCM raises ValueError for IVs outside 7 to 13 bytes | C84_ccm_nonce |
| `log_ok` | the computed height is not below the exact logarithm | C28 and everything built on it |
| `log_exact` | it equals the exact logarithm | C34, C36 (positive part) |
| `no_collisions` | no two packets of the build collide in SHA-256 | C35, C36, C58 |
| `no_second_preimage` | no answer of the reader is a second preimage for a packet of the build | C59 |

  Each is met by the instance `toy` / `exact_log` in the examples.
* If a property is false of the code, a theorem `..._refuted` gives a witness
  (or shows that it always fails), and the true part is proved with the
  condition in the statement.

## Trusted base

* The kernel of Coq 8.16.1 (`vm_compute` is used, `native_compute` is not).
* `Print Assumptions` is run for every claim theorem in the Props files; the
  answer is always "Closed under the global context": no axioms, neither our
  own nor of the standard library. (A listing of everything loaded also shows
  parameters of the module type in Coq.ssr.ssrunder, which `lia` brings in; no
  theorem depends on them.)
* The correspondence of the model with the Python text, read by hand; each
  definition names the file and lines. Vectors.v tests it.
* CPython semantics as modelled: integers are unbounded, `float` is binary64
  with round to nearest even, dict lookup uses `__hash__` and `__eq__`
  (collisions of the 64-bit `hash()` are not modelled), integers of more than
  4300 digits cannot be turned into text, and datetime has the limits of 64 bit
  Linux.

## What is not modelled

* The printed texts themselves: only whether they can be made (C76, and on the
  path of a traversal C44). Logging below the level that is switched on.
* What networkx, pydot and matplotlib do in ManifestGraph.save and plot.
* apps/: argparse (Cli.v starts with the text of each option),
  datetime.fromisoformat for texts of other than the documented form and the
  local time zone (parameters of Iso.v), the -T option, core/DisplayFormatter.py.
* The PEM format itself (parameters of Pem.v).
* HKDF of the cryptography package (a parameter of Kdf.v).
* Operating system errors other than those of reading the input (C80), reads
  that return None, Python's memory and recursion limits (see OutOfFuel).
* Timing; concurrency (the package has none).
* Simplifications inside a modelled function are named in its comment.

## Proof plan per property

C01-C05: induction on byte lists, `lia` for shifts and masks.
C06-C09, C13-C16: codec per class; a generic lemma on sequences of TLVs and one
on field tables (`auto_parse`).
C10: each iteration consumes at least 4 bytes; fuel suffices.
C11, C12: generic lemmas on the field table parser.
C17, C18: direct computation, induction on groups.
C19, C23: injectivity of TLV concatenation; hash as a parameter.
C20: integer model of round-to-nearest-even; interval argument.
C21, C22, C45-C51: primitives as parameters, codec injectivity.
C24-C26: induction on the stream; packet length computation.
C27, C28: exactness of float division below 2^53, search loops as minima,
capacity of trees by induction on height.
C29-C34, C37-C39, C57: a Hoare logic for `st` (`run` in TreeProofs.v) and one
invariant by induction on the level: the builder produces a `tree` of
TreeSpec.v; everything else is a fact about such trees (TreeFacts.v).
C40, C41, C52: length computation against the reference manifest.
C42, C54: induction on the history of puts.
C43, C44: traversal against an inductive description of visited packets, for an
arbitrary store.
C35-C37: composition of the above: the tree of the builder is a tree for the
traversal specification; packets with the same hashed bytes are read the same.
C58: the packets of a build parse back to themselves up to their header; then
as C35.
C59: induction on the tree of the build for an arbitrary reader: each answer
has the content type and payload of the packet it stands for.
C60, C61: inversion of the decryptor and of the build; facts of the tree invariant.
C62: the search invariant of C27, applied to the waste.
C63: interval arithmetic for UTF-8; induction on the text for the splitting.
C64, C65: effect of one put on each file and counter; refinement of the memory
writer; injectivity of decimal notation and of joining.
C66: uniqueness of framing by induction on the frames.
C67-C69: the options made from arguments meet the hypotheses of C58; inversion
of the programs.
C73: recursive readers of texts against inductive spellings, in both directions.
C74: inversion of one step of the traversal at a manifest of the build; the
codec of the security context modulo 2^64.
C75: each comparison decides equality of its field; codec injectivity; rounding
depends only on the ratio.
C76: each text is decided against a declarative predicate; inversion of builds;
simulation of the traversal by the one that also makes its messages.
C77: case analysis; uniqueness of framing.
C78: the position as a function of the history of calls; loops by induction on
what is left.
C79: case analysis on the first line and the password.
C80: an invariant of the loop over the reads, with the counter; the results on
whole builds (BuildProofs, build_run) do not depend on how the file is cut or
where the numbers start.
C81: invariants of histories of calls; injectivity of the codecs.
C82: injectivity of concatenations of TLVs, parts told apart by their type.
C83: parser and printer are inverse; induction over days; relative error of a rounded quotient.

## Seeded bugs

seeded/LOG.jsonl has one line per wrong program tried: the edit, the claim it
breaks, the theorems that stopped proving, and which theorems were tightened
because they still proved.

How to read it. Each proof that no longer compiles is replaced by Admitted and
the build goes on; `proofs_broken` lists these. `theorems_failed` lists the
property theorems that are then no longer closed, and
`failed_only_through_lemmas` those of them whose own proof still compiled but
which use a broken lemma. A theorem in `theorems_failed` is one whose proof
stopped working. It is not thereby shown to be false of the wrong program: a
shared lemma such as `root_inv` takes down theorems the edit does not touch.
For about half of the seeds (79 of the 150 run in rounds 1 to 4) every failure
is of this indirect kind, so such a line alone is weak evidence that the
theorem is strong enough. These seeds were followed up. In lines with a field
`refuted` the statement of the theorem named there was proved false of the
wrong program, with the proof given (run in a scratch copy, closed under the
global context). In lines with a field `observed` concrete runs of both
programs were computed that differ: what the right program does, which the
theorem demands, and what the wrong one does. The cases: `reads` and `reads
seg` give error, whether the data came back, packets visited and absence of
collisions for builds that are read back; `plain` and `secret` give, for
builds, whether the root is last, the number of packets, and whether the start
ids, node sizes and group sizes agree with the objects below. The follow-up
found four theorems that were still true of the wrong program (C27, C31, C40,
C48); these were tightened.

Rounds 5 to 14 (321 wrong programs, aimed at C57 to C84 and again at some
older ones) were run the same way, most of them when the theorems were new.
Sixteen led to a theorem being added or tightened, named in
`theorems_tightened`; the line shows the result after that. About a third of
these seeds failed only through lemmas; eight in ten of those were followed
up and are `refuted`, and so are many whose own proof broke. The lines that
failed only through lemmas and have no field `refuted` are weak evidence (about
twenty, most of them in Tree.v and GraphBuild.v). Some edits turned out
to break no claim; their `note` says so.

Only theorems in
the files of the properties a seed is aimed at are rebuilt, so a theorem of
another file that is missing from a line was not tested.
