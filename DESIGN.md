# Formal model of bitcoinX in Rocq

## Layout

* `rocq/theories/Model/` - definitions only; each definition cites the file and
  lines of `/repo/bitcoinx` it models and says where it simplifies.
* `rocq/theories/Spec/` - small specifications written without using the model's
  functions.
* `rocq/theories/Proofs/` - lemmas and proofs.
* `rocq/theories/Props/` - the property theorems (`exact` of a proved lemma), each with a
  concrete example meeting its hypotheses and a `Print Assumptions`.

## Modelling conventions

* `bytes` is `list Z`, with `bytes_ok` saying every element is in 0..255.  Text is a
  list of code points.
* A Python exception is a value: `result A := Ok a | Err e`.  An operation that mutates an object
  returns the new object together with its result, also when it raises.
* Python slices, negative indices, floor division and modulo are modelled as Python
  defines them.
* A generator or stream reader is a function from the remaining bytes.
* Hash functions, HMAC, NFKD, AES and the secp256k1 group are parameters of most
  definitions (section variables that become arguments, never axioms).  A theorem that
  needs a law of one of them (output length, group law, decrypt inverts encrypt) has it as a
  hypothesis, and an example shows an instance that obeys it.
* dicts keep insertion order (association lists), because cache eviction depends on it.

## Trusted base

* Coq 8.16.1's kernel, including its virtual machine (`vm_compute` is used in examples and for facts about
  fixed tables).
* `Print Assumptions` says `Closed under the global context` for every theorem in `Props/`: no axioms, of the
  standard library or otherwise.
* The reading of the Python source that the comments in `Model/` document.
* Python built-ins and standard modules are modelled by hand: `struct`, `int.to_bytes/from_bytes`, `bytes.fromhex/hex`,
  slicing, `str.split/lower/upper/isspace` on ASCII, UTF-8 encoding, `base64.b64encode/b64decode(validate=True)`, `re` for the
  patterns used, `int(text, base)`, `mmap` (memory-like file with a fixed size and no reordering of writes by a
  process crash).
* Libraries outside the repository are modelled from their documentation:
  * libsecp256k1 (through electrumsv_secp256k1/coincurve): key parsing, addition, multiplication, combination
    (`Model/Curve`), DER and compact signatures (`Model/Der`), sign, verify and recover (`Model/Ecdsa`), its nonces (`Model/Nonce`, proved to be RFC 6979's) over an
    abstract group with coordinates, of which secp256k1 itself (`Model/Secp256k1`) is proved to be an instance.
    The primality of the group order and of the field is proved, not assumed.
  * hashlib and hmac (`Model/Hashes`): SHA-1, SHA-256, SHA-512, RIPEMD-160, HMAC, PBKDF2, proved to compute what the
    standards say (`Spec/HashSpec`).
  * AES and its CBC mode (`Model/Cipher`, with Cryptodome's exceptions), proved to be FIPS 197 and SP 800-38A (`Spec/AesSpec`).
  * pyaes 1.6.1 (`Model/Pyaes`), from knowledge of its sources, which are not in /repo: its mode of operation, feeder and exceptions. Its block cipher
    is taken to be that of FIPS 197.
  * Division of Python ints (`Model/Floats`), after `long_true_divide` of CPython's longobject.c; its fast path, the hardware's division of two
    exactly represented doubles, is taken to round as IEEE 754 says, like the slow path.
  * NFKD and lower case are arguments.

## Hypotheses on parameters

Theorems that need a law of a parameter have it as a hypothesis; each is met by an instance in the development.

| Hypothesis | Says | Instance |
|---|---|---|
| `curve_laws C` | group of prime order N, generator of that order, points serialize to 33 or 65 bytes and parse back | secp256k1 itself (`C91_laws`); also `toy` in `Proofs/CurveFacts` (the integers modulo N), used by examples |
| `coords_laws C K` | x below the field size, a point is given by x and the parity of y, opposite points share x | secp256k1 itself (`C91_coords_laws`); also `Proofs/ToyCoords` |
| `uncompressed_laws C` | the 65-byte form begins with 4 and is the only such form | secp256k1 itself (`C91_uncompressed`); also `toy_uncompressed` in `Proofs/ToyCoords` |
| `cbc_laws enc dec` | on whole blocks of bytes encryption succeeds, keeps the length and is undone by decryption | AES itself (`aes_laws` in `Props/CipherProps`); toy cipher in `Props/KeysProps` |
| `text_laws` | normalization (NFKD, lower case, accents, CJK spaces) is idempotent, leaves the word lists alone | identity-like instance in `Props/MnemonicProps` |
| `unicode_laws` | also: NFKD decomposes ASCII, Spanish vowels and ñ, hiragana and unified ideographs as the Unicode tables say, and does nothing the second time; lower case leaves caseless characters alone | `table_laws` in `Props/WordlistProps` |
| hash lengths and byte range | SHA-256 gives 32 bytes etc. | the functions themselves (`C94_sizes`); constant or modular hashes in examples |
| nonces | the nonce function gives bytes; signing takes a fuel (libsecp256k1 loops until a nonce works) | RFC 6979 (`rfc6979_nonce`, C99); `toy_nonce` in examples |
| distinct hashes | for chain theorems, the headers concerned have different hashes | literal headers |

## What is modelled

| Code | Model | Left out |
|---|---|---|
| packing.py | Packing | |
| tx.py | Tx, TxJson (with the library's utcfromtimestamp/isoformat and UTF-8 decoding with errors='replace'), Objects | |
| work.py, consts.py | Bits, Work | |
| coin.py | Coin, Floats (difficulty) | `header_hash` choice of function (argument) |
| chain.py, headers | Storage, Chain, RecursionLimit (the same lookups under a recursion limit) | logging, lru caches, `log2_work` |
| script.py | Script | |
| base58.py, cashaddr.py | Base58, Cashaddr | lru_cache |
| signature.py, base64, DER | Signature, Base64, Der, Ecdsa, Nonce | |
| keys.py | Keys, Curve | random source is an argument |
| bip32.py | Bip32 | |
| address.py | Address | |
| mnemonic.py | OldWords, Mnemonic, ElectrumSize, Wordlists (the files byte for byte, and the cache) | file system errors other than a missing file; threads using the cache at once |
| `__eq__`, `__hash__`, `__str__`, `__repr__` of all classes that define them | Objects (the reprs of classes other than headers, errors, inputs, outputs, derivations and private keys are base58 or hexadecimal texts modelled elsewhere) | hashes of bytes, tuples, identities are parameters |
| hashes.py, with the parts of hashlib and hmac that are used | Hashes, Misc | |
| aes.py, with the parts of Cryptodome and of pyaes that it uses | Aes, Cipher, Pyaes | |
| misc.py, util | Misc, Text | |

## Plan per property

| Property | Model | Proof |
|---|---|---|
| C01-C03 | Model/Packing: struct formats, varint, varbytes, lists | arithmetic on base-256 digits; induction on lists |
| C04-C07 | Model/Tx: readers and writers | codec combinators: round trip, prefix-freeness, canonical re-encoding |
| C08-C10 | Model/Tx: signature_hash over an abstract double_sha256 | relational proofs; preimage parsing is injective |
| C11-C12 | Model/Tx | case analysis; C12 is refuted with a witness and characterised exactly |
| C13-C15 | Model/Work | case analysis on size; arithmetic |
| C16-C20 | Model/Work, Model/Chain (median) over `header_at_height` as a partial function | arithmetic; insertion sort specification |
| C21-C25 | Model/Storage: file as bytes, trace of file effects | invariant relating file and a map; every prefix of the trace for crashes; C23/C24/C25 refuted where the code fails, remaining crash points proved |
| C26-C35 | Model/Chain: arrays, chains, cache | one invariant over reachable states, refinement to a tree of headers |
| C36-C44 | Model/Script, Model/Address | induction on scripts; C40, C44 refuted with witness plus positive theorem |
| C45-C47 | Model/Base58, Model/Address | positional notation, unique digits |
| C48-C50 | Model/Cashaddr | GF(2) linearity of the polymod; bit list view of convertbits; for four errors the roots of the generator in GF(2^20) as operators on 20-bit numbers (Hartmann-Tzeng) |
| C51-C52 | Model/Keys, Model/Bip32 | round trips on top of base58check |
| C53, C55, C56, C67, C68 | abstract group with scalar action | group laws |
| C54 | chain strings over code points | decimal digits; regex semantics including `$` before a final newline |
| C57 | Model/Aes padding | list reasoning |
| C58-C59 | Model/Signature; Spec/SighashSpec: the text of a sighash byte by its digits | case analysis |
| C60-C62 | Model/Mnemonic | positional notation over word lists |
| C63-C66 | Model/Misc, Coin | lists and digits |
| C69-C72 | Model/Mnemonic | positional notation; refuted where int() is lenient |
| C73-C77 | Model/Ecdsa, Keys | the verification equation over the abstract group; order is prime so inverses exist |
| C78-C80 | Model/Der, Base64, Signature | parsing relations proved equivalent to the parser; digit arithmetic |
| C81-C82 | Model/Keys | serialization laws of the curve; positional notation |
| C83 | Model/Address, Keys, Bip32 | leading base-58 digits as a quotient, bounded over the whole range of the payload |
| C84-C87 | Model/TxJson; Spec/Utf8Spec: UTF-8 and maximal subparts | entries of the object, injectivity of each part; day counting against a one-day-at-a-time calendar; C87 refuted |
| C88-C90 | Model/Objects | meaning of == as an inductive relation; fields of texts end at characters no number contains; codecs and laws reused |
| C91-C93 | Model/Secp256k1: affine points as pairs of numbers | the field is prime (Pocklington), the group law from two line equations per chord or tangent, N G = O by a checked chain of slopes, N P = O for all P by counting points, the rest from Fermat and the parity of y |
| C94-C96 | Model/Hashes: lists of words | a standard's step as a relation between sequences of words (W, A, E), functions given bit by bit, constants as roots of primes; the code's steps satisfy it and determine the result; equal digests give a first differing step, located in the two computations |
| C97-C98 | Model/Cipher: blocks as lists of 16 bytes | GF(2^8) as polynomials, products unique; tables checked entry by entry against the field; linearity for MixColumns and its inverse; the standard's state and schedule as functions of row and column, shown equivalent step by step; C98 puts secp256k1, the hashes and AES into C56 |
| C99 | Model/Nonce, Ecdsa | the generator's states against the RFC's; first suitable candidate by induction on fuel |
| C100 | KeysProps, AddressProps, Bip32Props, HashesProps | instances; invariants along derivation paths |
| C101-C103 | Model/Wordlists: files as byte literals | one computation per file checks its lines; distinctness by a trie proved right; invariant on the cache |
| C104 | Model/Floats: a double as mantissa and exponent | distance to the quotient as integers over a common denominator; binades; gaps between targets are wider than rounding |
| C105 | as C26-C35, at 2^16 chains | the accepting case of connect again, with the append to the 16-bit array failing; reachability by induction with C27_new over a wide tree |
| C106 | Model/IntLimit: int() with a limit on digits | the words and parts with too many digits; everything else as in C40 and C54 |
| C107 | Model/ElectrumSize: number of words and of bytes drawn, in floats | an accurate logarithm said with powers of integers only; relative errors of two roundings; counting the byte strings with a given remainder |
| C108 | Model/Pyaes: the feeder's loop and buffer | induction over the blocks; equal to the Cryptodome model up to two kinds of exceptions |
| C109 | Model/RecursionLimit: the lookups of Chain.v with a bound on the calls of `header_index` | chains start above their parents; the rules read at most 2016 (147) heights back; a comb of nested chains, by induction, shows both bounds are needed |
| C110 | Spec/PowerSpec: the contents that the file has had since the flush; each page on the disk is from one of them | every effect of an append leaves the bytes before its header alone; a torn header is followed through opening the file |
| C111 | Model/Chain: the second object is its old memory with the new file | the accepting case of connect again, for a memory that lags behind the file; the file is followed through opening it |

## Not modelled

Logging, pickling, type annotations, `lru_cache` (pure functions), file system errors, NFKD tables, logarithms themselves (`Chain.log2_work`; in mnemonic.py:217 and 337 math.log is any function with a relative error up to 2^-50, what is done with its result is modelled in `Model/ElectrumSize`), Python 3.7's tolerance of a newline at the end of base64 text,
non-ASCII case mapping and whitespace, Python's recursion limit except for
header lookups (C109), running out of memory or disk, memory maps of different lengths of one file (C111 takes them
to be as long as the file).
