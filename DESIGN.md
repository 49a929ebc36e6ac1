# Design of the formal model of python-proofchains

The code in `/repo` is read as text; the model is written in Rocq/Coq 8.16.1 under
`rocq/theories`.  `properties.jsonl` lists the English properties (C01, C02, ...),
`MANIFEST.json` maps each to the theorems that settle it, `seeded/LOG.jsonl` records
the wrong-program experiments.

## 1. Trusted base

* The Coq 8.16.1 kernel (and `coqchk`), including the VM used by `vm_compute`.
* `Print Assumptions` stands under every property theorem.  For every one of them, without exception, it
  prints "Closed under the global context": no axioms, neither of our own nor of the standard library.
  (A scan of all loaded modules also meets seven constants without body in `Coq.ssr.ssrunder`; they come with the
  standard library's tactics and no theorem depends on them.)
* The reading of the Python code: every model definition cites the file and lines it
  models and says where it simplifies.
* Python's own semantics as used by the model: unbounded ints (`Z`, `N`), `bytes` as `list byte`,
  exceptions as values (`result A := Ok a | Err exn`, one constructor per exception class), generators as lists
  together with the exception that ends them, `struct.pack/unpack` of fixed-width integers, slices (`PySlice.v`).
* `hashlib.sha256`, SHA-1 and RIPEMD-160 are *implemented* in Gallina (`Sha256.v`, `Sha1.v`, `Ripemd160.v`) and checked
  against published test vectors and against the constants in the repository's tests.  No
  collision-resistance is ever assumed: the binding theorems say "equal, or these two
  explicit, different byte strings that were hashed have the same digest".
* ECDSA verification (OpenSSL, `core/key.py`) is a parameter: an arbitrary boolean function of key, digest and
  signature, over which the theorems quantify.  For keys (C138-C144) the functions of OpenSSL that `core/key.py` calls are
  a record of arbitrary functions; theorems that need more hold for every such record that meets the description
  `library` in `Key_Spec.v`.  The description says nothing about an object for which reading a public key failed.
  `diffie_hellman` in `KeyEx_Spec.v` adds key exchange and private keys.  It is trusted that ctypes passes pointers whole: only
  EC_KEY_new_by_curve_name is declared to return one, the results of BN_new, EC_KEY_get0_group, EC_POINT_new and
  EC_KEY_get0_public_key go through a C int, which on a 64-bit machine may cut them off.

## 2. Conventions

* `X_Model.v`  - executable model, one definition per Python function, cited by line.
* `X_Spec.v`   - the small independent vocabulary used to state the theorems.
* `X_Proofs.v` - lemmas; `X_Examples.v` - concrete classes and objects for the examples.
* `X_Props.v`  - property theorems only (named after their property), with `Print Assumptions` and an `Example`
  showing a non-trivial instance of the hypotheses.
* A property that is false of the code gets a theorem `..._refuted` with a concrete witness, together with
  the exact boundary inside which it does hold (`..._partial` or an iff).

## 3. What is modelled

| source | modelled | model file | not modelled |
|--------|----------|------------|--------------|
| `proofmarshal/bits.py` | all of `Bits`, `BitsSerializer` | `Bits_Model`, `Repr_Model` (printing) | (it has no `__hash__`: not a key) |
| `proofmarshal/serialize.py` | stream contexts, all primitive serializers, `HashTag` | `Serialize_Model` | the abstract contexts, whose methods only raise `NotImplementedError` |
| `proofmarshal/proof.py` | `Proof`, `VarProof`, `ProofUnion`, pruning, `is_pruned`, constructors and their class-level cache, (de)serialization | `Proof_Model`, `Declare_Model` (making classes), `Cache_Model` (values), `Heap_Model` (objects with references, kept hashes, views of views), `MmrRepr_Model` (printing), `PDict_Model` (as dictionary keys), `ReadErr_Model` (number of calls when reading) | methods and slots read as attributes; in `Proof_Model` a view is a value and line 123 never raises TypeError (in `Heap_Model` it does) |
| `proofmarshal/mmr.py` | all node classes and operations | `Mmr_Model`, `Declare_Model` (the decorator), `MmrRepr_Model` (printing), `MmrView_Model` (reading an item through a pruned copy), `MmrCost_Model` (`append` with a count of its calls) | items that are MMRs print like other proofs |
| `proofmarshal/merbinnertree.py` | all node classes and operations | `Merbinner_Model`, `Declare_Model` (the decorator), `MbtView_Model` (lookup through a pruned copy), `MbtCost_Model` (number of calls) | |
| `proofchains/core/bitcoin.py`, `proofchains/core/uniquebits/singleuseseal.py` | all | `Chain_Model` | |
| `proofchains/core/uniquebits/gumap.py` | all | `Gumap_Model`, `Declare_Model` (the decorator) | |
| `sus-tool.py` | commands `mkseal sealinfo mkclosetx mkwitness witnessinfo verifywitness` as functions on file contents; the whole run: arguments, files read and created, configuration, proxy, requests, output, exceptions | `Chain_Model`, `SusTool_Model`, `SusLines_Model` (lines printed before a failure) | argparse's own grammar (arguments are given by name), `-`, `-q`/`-v` and logging, file system errors other than missing and existing files |
| `bitcoin/core/serialize.py` | all | `Serialize_Model`, `Tx_Model`, `Block_Model`, `Net_Model`, `ShortStr_Model` | - |
| `bitcoin/core/__init__.py` | outpoints, inputs, outputs, transactions (immutable and mutable), headers, blocks, merkle roots, `Check*`, `GetSigOpCount`, `b2x/b2lx`, money texts | `Tx_Model`, `Block_Model`, `Money_Model`, `Hex_Model`, `Repr_Model` (printing), `Difficulty_Model`, `TxObj_Model` (transactions as shared objects), `Dict_Model` (as dictionary keys) | `uint256_to_shortstr` |
| `bitcoin/__init__.py`, the parameter classes in `bitcoin/core/__init__.py` | all, as two variables that `SelectParams` sets, and what the checks, addresses, ports and messages make of them | `Params_Model` | `DNS_SEEDS` |
| `bitcoin/core/script.py` | `CScript` construction and iteration, predicates, `FindAndDelete`, `RawSignatureHash`, `SignatureHash` | `Script_Model`, `SigHash_Model`, `Repr_Model` (printing), `TxObj_Model` (`RawSignatureHash` on objects) | — |
| `bitcoin/core/_bignum.py` | `bn2vch`, `vch2bn`, `bn2mpi`, `mpi2bn`, `mpi2vch`, `vch2mpi` | `Script_Model`, `Mpi_Model` | |
| `bitcoin/core/scripteval.py` | all, ECDSA as a parameter | `ScriptEval_Model` | text of error messages |
| `bitcoin/base58.py`, `bitcoin/wallet.py` | encoding, addresses, secret key texts | `Base58_Model`, `Repr_Model` (printing) | |
| `bitcoin/bloom.py` | all; in the constructor the floating-point expressions are arbitrary values | `Bloom_Model` | |
| `bitcoin/net.py`, `bitcoin/messages.py` | all; what the C library makes of IP texts other than four plain decimal numbers is a parameter | `Net_Model`, `MsgRepr_Model`, `UAlert_Model` (printing) | printing of unknown commands, attributes of other Python types |
| `bitcoin/rpc.py` | `JSONRPCException`, `RawProxy._call`, `_batch`, `__getattr__`, all methods of `Proxy`; the node is a parameter (a function of all requests so far), JSON is modelled as values | `Rpc_Model`, `RpcBatch_Model` | HTTP, text of JSON, NaN and Infinity |
| `bitcoin/rpc.py:57-128` | the constructor of `RawProxy`: bitcoin.conf, `service_url`, the header Authorization; what it uses of `urllib.parse`, `int`, `str`, `base64` is modelled as of Python 3.11 | `Conf_Model` | the path of bitcoin.conf, files that are not ASCII (refused in the model), whether an address between brackets is an IP address (parameter), numbers of more than 4300 digits |
| `bitcoin/core/key.py`, `CKey` of `bitcoin/wallet.py` | making keys, signing, verifying, public and private keys, key exchange; OpenSSL as a parameter | `Key_Model`, `KeyEx_Model` | arguments that are not bytes |
| `examples/spend-p2pkh-txout.py`, `examples/spend-p2sh-txout.py` | all, with the constants as parameters | `Key_Model` | |
| `examples/make-bootstrap-rpc.py`, `examples/timestamp-op-ret.py` | all; the node, the files and whether the clock moves are parameters | `Prog_Model` | what goes to the standard error stream; names of files that are not ASCII |
| `examples/msg-serializable.py`, constructors of `bitcoin/messages.py` | all; time and random number are arguments | `MsgNew_Model` | lines printed before an exception |
| `examples/bip-0070-payment-protocol.py` (Python 2 and protobuf) | nothing | | |

## 4. Per property

What is modelled is the row of section 3 the anchors of the property point to.

| id | how it is proved |
|----|------------------|
| C01-C04 | abstraction `bits_of : Bits -> list bool`; each operation commutes with it; bytewise lemmas by exhaustive sweeps over bytes and offsets, lengths by induction |
| C05 | loop invariants; equality with list longest common prefix |
| C06 | injectivity from the canonical form |
| C07 | refuted by witness; exact characterisation (iff) of values that round trip |
| C08 | refuted by witnesses; positive on equal lengths; the order compares whole bytes and then the rest filled up with zeros, which gives all four operators on all values |
| C09, C10 | induction on the integer; a non-canonical witness refutes C10; minimality theorem |
| C11-C13 | case analysis; C13 refuted by a trailing byte; see C78, C79 for the exact set of accepted strings |
| C14 | explicit-collision reductions on concrete SHA-256 |
| C15-C20 | generic class table: values, full/hash-only/view proofs, `__getattr__` as state change; induction on nested proofs; C19 over adaptive read programs |
| C21 | refuted by an MMR witness; exact outcome in every case |
| C22, C23 | `Proof.__new__` with class-level attribute cache; refuted for unions / class histories; iff under stated conditions |
| C24-C29 | MMR operations on `Z` indices; induction on lists and tree size; canonical construction on lengths; C26 for a stop before the start: the right half is never the bigger one; C28 for arbitrary objects |
| C30-C35 | arbitrary equal-length injective prefix map; radix-tree invariant, refinement to a finite map over all histories |
| C36-C42 | direct and codec lemmas; exact meaning of every `verify` |
| C43 | refuted: always KeyError |
| C44-C46, C57, C58 | unique map: iff characterisations, collision reductions; C46, C57 refuted; C40 and C46 on a chain without double spends by counting outputs and by binding of seals |
| C47-C49 | parser/serializer induction |
| C50 | refuted for integer 0; exact image of every item |
| C51, C52, C56 | what a receiver can do with a pruned object: refuted by witness, exact boundary proved |
| C53, C54 | hex texts; C53 refuted for `witnessinfo` |
| C55 | induction on the deserializer |
| C59-C61 | header and block codec; merkle tree by induction on levels; C61 refuted by duplicated ids |
| C62-C65 | equivalence of the checks with declarative records; C63, C64, C65 refuted by concrete blocks and targets |
| C66 | counting over the operations of a script; accurate count refuted |
| C67-C72 | positional notation as independent meaning of base58; bijection; address and script conversions with refutations by concrete texts |
| C73-C75 | splitting a script into operations; `signs` as relation between what is covered and the bytes hashed; explicit collisions |
| C76, C77 | copies with the class of every part; decimal texts read back |
| C78, C79 | a grammar of texts (`Grammar_Spec`) and equivalence of the readers with it, for all byte strings |
| C80 | the script language as an inductive machine (`ScriptEval_Spec`); simulation in both directions, opcode by opcode, invariant on sizes and on the text after the last OP_CODESEPARATOR |
| C81, C87, C89, C90 | consequences of C80 for the usual scripts, by running the machine symbolically; conditionals by induction on nesting |
| C82 | every primitive of the evaluator raises only the listed classes, under the size invariant |
| C83, C84 | invariants of the machine; C83 refuted by 1001 pushes |
| C85, C86, C88, C91 | C80 applied to both scripts; C86 refuted for the flag of the other module, C88 for script hashes, C91 for missing inputs |
| C92, C93 | bits of the array as a set; loop lemmas for insert and contains; extensionality of byte arrays |
| C94 | the published algorithm in arithmetic mod 2^32; carries of the unmasked products are multiples of 2^32 |
| C95 | refuted for every filter: the reader always raises; the text determines the filter |
| C96 | floats as finite, infinite or nan values |
| C97 | grammar of frames and bodies in `Net_Spec`; written bodies are texts of least length |
| C98 | equivalence with "attributes that are not sent have their defaults"; streams by induction |
| C99 | both directions between the reader and the grammar; frames are opened in one way |
| C100 | refuted by three ignored places; partial: sending again is never longer |
| C101 | refuted by a negative length, for every continuation; partial: other lengths |
| C102 | refuted by old version messages; partial: exactly those |
| C103 | magic bytes differ; `from_bytes`, `serialize`, `deserialize` fixed to the main network |
| C104 | every frame with a checksum that is not that of its body |
| C105 | error analysis of every reader of a body |
| C106 | refuted for all alerts (undefined names) and all lists of numbers (None returned); partial: the alert message |
| C107 | as C98 for the parts |
| C108 | comparison of encodings, with C98 |
| C109 | refinement: every program on `Heap_Model` has the outcomes of the same program on values, by an invariant of the heap |
| C110 | hashes, attributes and is_pruned never change once shown; references included |
| C111 | both runs refine the same run on values |
| C112 | commands other than reads leave the abstraction of every object alone |
| C113 | frame property: objects of the owner of a view are not reached by others, for every interleaving |
| C114 | refuted by an attribute declared with a union; partial: tables without unions |
| C115 | refuted by a view of a view; partial: proofs that no view is part of |
| C116 | simulation between the heap of the sender at the time of sending and the value that is read |
| C117 | refuted in a process that made no instance of the class; partial: one of them is not fully pruned |
| C118, C119 | every method is one call of the node between conversions without effect; case analysis over the methods, induction over calls |
| C120 | relation `asks` between method and arguments of the request, written from the documentation; transactions and blocks via C78 |
| C121, C126, C127 | conversions characterised by relations (`hex_text`, `tx_text`, `block_bytes`, `addr_text`, `rewritten`) |
| C122 | Decimal multiplication and rounding; numbers that are whole base units are not rounded below 10^28 |
| C123 | error bound: half a unit in the last place of a 53-bit quotient is less than half a base unit |
| C124 | refuted by a node that sends another transaction or block; partial: honest nodes |
| C125 | no conversion raises IndexError; exact set of replies |
| C128 | lines, settings and the port are relations (`lines_of`, `setting`, `port_of`); refuted by a password with "/" (connects to another host with other credentials); partial: user and password without `/?#[]` and tabs |
| C129 | refuted by https without a port (port 80); partial: all other URLs with a host name |
| C130 | base64 as a relation on texts, shown to be a function backwards |
| C131 | by cases on the command and induction on the witnesses written; the only writes are to names that had no file |
| C132 | refuted by mkseal and by mkwitness with two files; partial: the other commands and one file; the files mkwitness leaves are characterised for all lists (induction) |
| C133 | composition of C42 with the files, the hex texts and the configuration; the rejection of other digests from the binding of commitments |
| C134 | refuted by a node that sends another transaction; partial: equality of the runs with `--txid` and `--tx` |
| C135 | refuted by another seal file; partial: exact condition for success |
| C136 | the requests sent are part of the result of a run |
| C137 | refuted by a disk without bitcoin.conf; partial: two runs that agree on the files named have the same result |
| C138 | refuted by a secret of one byte and its text; partial: the bytes read are computed from the secret if it has 31 bytes or more |
| C139 | the text of a secret by C72; the object made is followed through derive, form, write, read; signing and verifying by the description of the library |
| C140 | refuted with a library that leaves a point behind; partial: the same chain for bytes that are a key |
| C141 | C139, the signature hash depends on the covered part only (C75), and the exact condition under which P2PKH verifies |
| C142 | the same, with the execution of the redeem script step by step |
| C143 | the copy of the transaction made for hashing is the same; then every step of the interpreter |
| C144 | composition of secret texts, address texts, C141/C142 and the transaction codec |
| C145 | refuted with a clock that does not move; partial: induction on the number of blocks, with C127 for each request; any node: the invariant that whole records have been written |
| C146 | refuted with a wallet and one file; partial: case analysis of what the node answers |
| C147 | `PyText_Spec` reads a part of Python's expressions and evaluates them, with doubles as integers times powers of two; a relation `expression` between texts and trees is shown to be what the parser does, by mutual induction; refuted with 3 satoshis; partial: induction on inputs, outputs and operations; texts with `<` outside of quotes are never read |
| C148 | refuted with 3 satoshis; partial: error bounds of the two roundings (`PyFloat_Proofs`) by integer inequalities |
| C149 | induction on the operations; the test for canonical pushes item by item |
| C150 | through the codecs of bit strings and base58 texts; the 16 bytes of a tag and the bytes of a key by cases on each byte |
| C151 | refuted for every header by what the tokens of 64 digits can be; partial: the fields are of fixed width or end before a comma |
| C152 | induction on the turns of the loops: multiplying and dividing by 256 loses nothing while exponents stay above -1074; monotonicity of rounding by cases on exponents |
| C153 | refuted with an inventory of type 4; partial: by cases on the message, with the fields that reading leaves as None; injectivity by induction on the list |
| C154 | strong induction on the length of the string; an operation at the front is unique because its text is prefix-free |
| C155 | invariant of the loop: the list is the levels built so far; branches by induction on the levels, soundness by going down from equal roots |
| C156 | a store of objects (`TxObj_Model`); invariant over programs: what is immutable throughout keeps its slots, and a remembered hash of such an object is that of its serialization; refuted with a mutable outpoint in an immutable input |
| C157 | the parts of a copy are new and mutable; frame: only written objects change; refuted with a deserialized transaction |
| C158 | refinement: each loop of the computation on objects keeps the relation between the working copy and the value, and touches only the copy |
| C159 | induction over the program with the node's history as a parameter of the relation |
| C160 | the text is written by the grammar of `PyText_Spec`, item by item; with C24 the call makes the same tree; hiding by induction on `hides` |
| C161 | the hash is the last 64 digits, so the text splits; then C16 and C17 |
| C162 | the state after any list of names is a function of the last known one (induction from the end of the list); refuted: mainnet chosen by name has no limit and no genesis block, messages keep mainnet's start bytes |
| C163 | mkwitness on an arbitrary well formed transaction, file by file; the digest is compared with output 0 only, so the boundary is exact; refuted with the change output put first |
| C164 | the dictionary of the interpreter over the store of `TxObj_Model` (`Dict_Model`); invariant: the entries are immutable throughout, have different contents and kept the right hash; refuted by changing a key |
| C165 | the dictionary of the interpreter over the store of `Heap_Model` (`PDict_Model`); invariant: each entry refers to a proof whose hash has the stored Python hash, and the hashes differ; same outcomes as a map of hashes over plain values |
| C166 | `__getitem__` and `__len__` on a pruned copy, which opens the fields it reads (`MmrView_Model`), then `ser_proof` of the copy; induction over the mountains, with the depth of an item bounded by the base-2 logarithm of the length. The receiver does not read such a proof (C21): the theorem is about what the sender sends |
| C167 | `append` and `_merge_trees` with a count of calls (`MmrCost_Model`), proved to give what the uncounted ones give; induction over the tree with the bits of the length. Hashing is not counted: constructors do not hash, hashes are computed when asked for |
| C168 | `parse_outpoint` of `Chain_Model` (with `int()` and `lx`) against a grammar of outpoints (`OutArg_Spec`); induction over the texts. Texts of more than 4300 digits, which newer Pythons refuse, are left out of account |
| C169 | `__getitem__` on a pruned copy, which opens the fields it reads (`MbtView_Model`), then `ser_proof` of the copy; induction over the radix tree: every inner node on the way has a prefix that the key shares with another one |
| C170 | `CECKey` with `set_pubkey`, `get_privkey`, `set_privkey` and ECDH (`KeyEx_Model`), OpenSSL a parameter that meets `diffie_hellman`; the laws give what each object holds after every call |
| C171 | lookup, `put` and `remove` with a count of calls (`MbtCost_Model`), shown to give the same results; prefixes along a path get longer and stay shorter than what the key shares with a neighbour |
| C172 | refuted: two seals with different nonces on one output; exact condition for `CheckTransaction` of what mkclosetx prints, with the sizes worked out (24388 or 24389 seals at most) |
| C173 | C163 (funding), C141 (signatures by the owner of an address) and the sizes of signed inputs put together; the converse from C38 and C87 |
| C174 | refuted by a cut outpoint; induction over the reader: the exceptions are those of an inductive description of what declarations allow (`ReadErr_Spec.refusal`); five for the classes of proofchains |
| C175 | `ctx_deserialize` with a count of its calls (`ReadErr_Model`), shown to give the same results; every call but the last reads a flag |
| C176 | nothing new is modelled: `put` and `remove` of `Merbinner_Model` on arbitrary nodes. By C16 objects with equal hash agree up to pruning; agreement is kept by every step of `descend`, `InnerNodeClass` and the rebuilding, and agreeing trees have the same hash. With C31 this gives the third aim of the module's description (changing a value, given only the commitment) |
| C177 | nothing new is modelled: `extend` and `getslice` of `Mmr_Model` on arbitrary nodes. As for C176: agreement up to pruning is kept by `MMRInnerNode`, the merging of peaks, `append`, iteration and slicing; with C24 and C26 the result for an honest hash is the documented tree of the resulting list |
| C178 | nothing new is modelled: `issubset` of `Merbinner_Model` on arbitrary nodes. By C16 objects with equal hash agree up to pruning; comparisons of nodes depend only on their hashes, lookups and prefixes of agreeing nodes are equal or pruned. With C35 this gives inclusion of maps |
| C179 | nothing new is modelled. By C16 objects with equal hash agree up to pruning; by induction on pairs of agreeing nodes every answer of one (length, listing in both directions, lookups, lookups that fail) is the answer of the other or PrunedError. With the representation theorems C24, C25 and C30 these are the answers about the list and the map |
| C180 | false: what is read is not checked. Refuted for a MMR whose length field says 77 above two leaves and a tree with a key on the wrong side, both read from bytes. Proved: what is given is listed and the length of a tree is what it lists, for every object; and that with length fields that count and keys that have the prefixes above them the claim holds (induction on the node) |
| C181 | the constructors and the program (`MsgNew_Model`); time and random number are arguments. Refuted for the protocol version 10300, which is received as 300; exact set of versions proved. What is sent is read back by C98, can be printed by C153; the literals are read by the grammar of C147 |
| C182 | the lines of `sealinfo` and `witnessinfo` with the point where they stop (`SusLines_Model`); that two runs with the same first line show the same as far as both go, or an explicit SHA256 collision (by C16) |
| C183 | no new model; the hash of the eight proofchains classes is specified from bytes alone (`Recipe_Spec`: pad and class marks as literal bytes, numbers as 7 bit groups) and proved equivalent to `hash` of the model; the instance agrees with values computed by hashlib |
| C184 | `Declare_Model`: class statements, look-up of class attributes through ancestors, `declare_variant`, the three `make_…_subclass` decorators as changes of a list of classes; `table_of` gives the class table that all other theorems are about. Proved by an invariant over the declarations: their hypotheses on the table (`wf_table`, `variant_table`, `wf_tags`, `is_mmr`, `is_mbt`, `is_gumap`) hold in every program of sensible declarations. Boundary: a decorated class derived from a decorated class changes the earlier one (`C184_nested`) |
| C185 | no new model; the hash of the tree for a list or a map is specified from bytes alone (`TreeRecipe_Spec`: marks as literal bytes, splits of the list, longest common prefixes) and proved equivalent to `hash` of the tree that any history of operations leads to, in every program of C184; the instance agrees with values computed by hashlib |
| C186 | no new model; the hash of a map node and the digest its witness must accept are specified from bytes alone (`MapRecipe_Spec`, with the recipe of C183 for seals and witnesses) and proved equivalent to `hash` and `verify` for every map object, in every program of C184 with the classes of proofchains; hypothesis: the derived content tags of leaves and inner nodes differ (as in C184); the instance agrees with values computed by hashlib |
| C187 | `ShortStr_Model` on the `%x` of `Repr_Model`; digits as an inductive relation between texts and numbers; the claim that different hashes have different short names is refuted, equality of names is characterised, and related to `b2lx` and `CheckProofOfWork` |
| C188 | `UAlert_Model` on `Repr_Model`; equality of two texts is inverted piece by piece (numbers contain no comma, the printed form of bytes ends where the reader of C147 says); the two attributes that are not printed refute the full claim |
| C189 | `Mpi_Model` (`bn2mpi`, `mpi2bn`, `mpi2vch`, `vch2mpi` with the size in front) on `Script_Model`; `Mpi_Spec` states the format in big-endian arithmetic; reading by cases on the four bytes, writing from the lemmas of C50; also shows that the simplified `bn2vch` and `vch2bn` of `Script_Model` are the compositions of the code |
| C190 | `Final_Model` (`CTxIn.is_final`) on `Tx_Model` and `Chain_Model`; readers take bytes off the front (combinator lemmas), the last four bytes are the sequence number; inputs of the close template by induction over the seals |

## 5. What is not modelled

* HTTP and JSON text, network sockets, argparse's grammar of command lines, logging; of files, only their names and contents.
* OpenSSL: what its functions compute (curve, ECDSA equation); it is described in `Key_Spec.v` as far as theorems need it.
* Python's grammar and evaluation, for printed forms: `PyText_Spec.v` has the part that printed forms are made of, with IEEE doubles for products of numbers.
* Multiple inheritance and metaclasses; methods as class attributes. A class statement is modelled by its base, SERIALIZED_ATTRS, HASHTAG and UNION_CLASSES.
* Python object identity (`is`), `__setattr__` around the interface of `Proof`, garbage collection, threads. Aliasing between views is modelled in `Heap_Model`, aliasing between transaction objects in `TxObj_Model`, and nowhere else; the theorems before C109 are about values.
* Performance, recursion limits, memory exhaustion; text of error messages.
