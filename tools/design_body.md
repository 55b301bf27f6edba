# Formal model of fadhilkurnia/shamir in Rocq (Coq 8.16.1)

(Generated by `tools/design.py` from `tools/design_body.md`, `properties.jsonl` and `MANIFEST.json`.)

## 1. Approach

The Go code is modelled function by function as executable Gallina over `list byte` (`Coq.Init.Byte.byte`), `nat`, `N`, `Z`. Every
definition of the model cites the file and lines it models. Only the Coq standard library is used.

* **Outcomes.** A Go call ends in `Ret v`, `Fail e` (a returned error), `Panic p`, `UB` (assembly accesses memory outside its slice) or
  `Diverge` (the fuel of a Go loop without static bound is used up). Every slice expression, index expression and array access is
  bounds-checked in the model, so "no panic" is part of every `= Ret ..` theorem. "Terminates" means `Ret` for all large enough
  fuel, "loops forever" means `Diverge` for every fuel.
* **Randomness.** Two levels. In most theorems `math/rand` is arbitrary: the result of `rand.Perm(255)` is any permutation of 0..254,
  `rand.Read` fills its buffer from any stream, and the theorems quantify over all of them. Secrecy is a counting statement over all
  coefficient buffers. In C51-C53 the generator itself is modelled, with its state, seed reduction and rejection loop.
* **AES.** The block function is an arbitrary function parameter; nothing is assumed about it. CTR and OFB modes are modelled on top of
  it. A `CSPRNG` is the key stream that its key and IV determine, read from offset 0 at each call, as in the code.
* **Architectures.** `AddVector`/`MulConstVector` are modelled for the portable, amd64 (any CPU feature flags) and arm64 builds; Split takes the
  build as a parameter and theorems quantify over it. C54 models the `.s` files instruction by instruction and proves that they compute
  what the build models say.
* **Pools, memory and goroutines.** Pool buffers carry their stale contents (arbitrary). SplitP and the clients of the buffer pool are small-step
  machines; theorems quantify over all schedules. Slices that share memory are modelled on a heap.
* **Properties the code does not have** are stated as exact characterisations (when does it fail, what is lost) with explicit
  attack or refutation theorems. See section 5.

## 2. Files (rocq/theories)

| files | contents |
|---|---|
| `GoSem`, `Bytes` | outcome monad, bounds-checked slices, loops; byte arithmetic |
| `GaloisTables`, `ShamirTables` | the tables of galois/tables.go and shamir/tables.go, generated from the Go source by a script |
| `Galois`, `Vector`, `Csprng`, `Randomizer`, `RandomizerNew`, `Pool`, `Polynomial`, `Shamir`, `SplitP`, `Krawczyk`, `Worker`, `Main` | the model of the Go files of the same name |
| `Libs`, `AES`, `MathRand` | models of library code that is not in /repo (reedsolomon, AES modes, math/rand) |
| `Memory`, `MemCalls`, `KrMem`, `KrSplitMem`, `SplitPMem`, `Concurrency` | slices on a heap, calls working on that heap, goroutines sharing the pools |
| `Asm` | the assembler files as instruction lists, and the machines that run them |
| `ConcAll` | all calls of the API as code of goroutines over the shared pools |
| `RandCalls` | a sequence of calls that draw from math/rand, one after the other |
| `ConcRand` | all calls that draw from math/rand as code of goroutines over the shared source |
| `TraceMore` | the same records for SplitGeneric, SplitWithRandomizer(Old), SplitP and Regenerate |
| `KrTrace` | the same records for krawczyk's Split, SplitWithRandomizer and Combine |
| `IntWidth` | the split functions with ints of a given width |
| `Trace` | Split and Combine and those machines with records of table reads, branches and addresses |
| `Spec`, `SpecKr`, `SpecMem`, `SpecMemCalls`, `SpecKrMem`, `SpecKrSplitMem`, `SpecRemain`, `SpecConc`, `SpecRand`, `SpecAsm`, `SpecHist`, `SpecMain`, `SpecTrace`, `SpecJoint`, `SpecWidth`, `SpecConcAll`, `SpecConcRand`, `SpecTraceMore`, `SpecPools`, `SpecJointKr`, `SpecRS`, `SpecRz`, `SpecConcKr`, `SpecPerm`, `SpecRandCalls`, `SpecRemainPkg`, `SpecDetect`, `SpecSplitPMem`, `SpecAdaptive`, `SpecFrequency`, `SpecMix`, `SpecTree`, `SpecWidthMore`, `SpecSource`, `SpecBias` | independent specifications used in the theorem statements |
| `*Facts`, `*More`, `*Top`, `Derived`, `Secrecy`, `RandAttack`, `KrawczykCombine`, `KrawczykContract`, `ConcSplit`, `MemSplit`, `AsmAmd`, `AsmAvx`, `AsmArm`, `AsmTrace`, `CombineTrace`, `TraceMoreP`, `PoolFacts`, `PoolMachine`, `JointKrFacts`, `RemainKr` | proofs |
| `PfN` | proofs of the property theorems (`Cxx_name_pf`) |
| `PropsN` | the property theorems, each `exact Cxx_name_pf`, followed by `Print Assumptions`, with concrete examples that meet the hypotheses (generated from `PfN` by `tools/genprops.py`) |
| `ExData` | data for the examples |

## 3. Per property

All properties can be expressed in the model. Status and notes are in MANIFEST.json.

| id | property | modelled | proof | theorems |
|---|---|---|---|---|
@@TABLE@@

## 4. Trusted base

* **Coq's kernel** (8.16.1), including its bytecode virtual machine (`vm_compute` is used for the exhaustive checks over the byte domain
  and for the examples; `native_compute` is not used).
* **Assumptions.** `Print Assumptions` under every property theorem prints `Closed under the global context`: no axiom is used, neither from the standard library nor
  of our own. (`coqchk`/the gate also lists seven `Coq.ssr.ssrunder.Under_rel.*` entries: these are parameters of a module type of the standard
  library that is merely loaded; no theorem depends on them.)
* No functors, module types, `Declare Module`, `Admitted`, or disabled checks. `Section` variables are generalised at the end of their
  section.
* **The reading of the Go code**: the only tie to the code is that each definition follows the cited lines. The tables are transcribed by script.

### What is modelled

Everything in galois/, shamir/, krawczyk/, csprng/, randomizer/, utils/, worker/ and main.go that is reachable from an exported function, and the
assembler files. One simplification per item below.

| Go | model | simplification |
|---|---|---|
| slice lengths, `(len(secret)+1)*parts`, loop counters | `nat` | no overflow. For package shamir, C68 and C88 show that overflow of `int`, and allocations that are too large, can only lead to a panic (IntWidth.v, IntWidthMore.v). The 32-bit arithmetic of SplitP and the 64-bit product of GalExp *are* modelled with wrap-around |
| `parts`, `threshold`, `numNewShares` | `Z` | any integer, also negative |
| error values | one constructor per message | the texts are not modelled |
| `rand.Read` errors | none | math/rand's Read never fails |
| `math/rand` (C51-C53) | `MathRand.v`, from the Go 1.17 source | the 607 constants `rngCooked` are an arbitrary list of 607 words; the seed-dependent initial state is as in `Seed` |
| `crypto/aes` | arbitrary block function; key sizes 16/24/32 | `AES.v` (FIPS 197) is used in C78_blocks and in examples |
| `aesctrat.XORKeyStreamAt` | XOR with the CTR key stream from offset 0 | assumed to panic unless the IV has 16 bytes (C47) |
| `cipher.NewOFB`, `StreamReader`/`StreamWriter` | OFB key stream XOR | |
| `klauspost/reedsolomon` 1.9.15 | the systematic code by interpolation at the points 0..dataShards-1 (that this equals the product with "Vandermonde times inverse of its top square", which the library computes, is proved: C77); documented error cases | whether New accepts zero parity shards (it changed between releases) is a parameter `zp`; re-use of spare capacity of zero-length shards by ReconstructData is modelled in `KrMem.v` only; `KrSplitMem.v` assumes that the shards delivered by Split/Encode have no spare capacity and lie in new memory |
| `bytes.Buffer` Reset/Grow/Bytes | a backing array that is kept, with its contents, or replaced by a zeroed one | the capacity after growing is an arbitrary function (`grow_ok`: at least what was asked); Go 1.17's is an instance |
| buffer pools | FIFO channel, non-blocking Get/Put, deferred Puts in LIFO order | the garbage collector is not modelled |
| goroutines | interleaving of single pool operations and single byte accesses | sequentially consistent; justified by the race freedom that is proved (C43, C12) |
| SplitP | caller and goroutine steps, locked random source | `makePolynomial`'s `rand.Read` is one atomic step |
| assembler | registers, Z/N flags, flat memory with faults | other flags and timing are not modelled; instruction semantics transcribed from the manuals |
| memory layout | heap of arrays, slices = (array, offset, length, capacity) | returned shares are shown with their final contents (`Memory.v`); `MemCalls.v` runs calls step by step on the heap |
| main.go | printed lines without times | CFB ciphertexts are dropped by the program and not modelled |

Not modelled: cli/cli.go (its body is commented out), benchmarks and tests, data/*.py, timing side channels, the contents of error messages, memory
exhaustion.

## 5. Findings (properties a user would expect and the code does not have)

* C15: Regenerate's duplicate check changes only the loop variable: new shares can repeat old tags, repeat each other, or have tag 0, which is the
  secret in the clear. C16: it never returns when more than 256 tags would be needed. C60: it does not notice too few shares; C91: nor altered ones, whose errors it copies into the new shares.
* C19/C20: SplitWithRandomizer can hang, and can issue tag 0. C21: its tags are the coefficients, threshold-1 shares can reveal secret bytes; C80: so they can in SplitWithRandomizerOld and from 20 parts on. C22, C45: key
  stream reuse within and across calls.
* C25: randomizer.Perm is not a permutation. C90: CSPRNG.Perm is far from uniform: Perm(255) leaves the last element in place for 98.8 percent of the key streams.
* C13: SplitP goes wrong from 2^32-1023 bytes on.
* C29: GalExp overflows for huge exponents. C31: unequal lengths behave differently per build, up to memory corruption.
* C36: krawczyk.Combine panics on malformed shares. C38/C39: krawczyk.SplitWithRandomizer publishes its key in the tags and reuses the key stream. C56, C92: pieces are
  not authenticated; altered ones are mixed, undetected, into the missing ones. C93: nor is the metadata; one participant can cut the secret to any length. C72: a share of krawczyk.SplitWithRandomizer whose metadata tag is 0 holds the AES key in the clear. C41: OFB with constant zero IV. C63: krawczyk.Combine overwrites, in the caller's memory, the index byte and the spare capacity of a 22-byte share with
  the reconstructed piece, and with unlucky layouts other shares it has not read yet. C65: after Split the secret stays in the clear in a pool buffer until the next split; C76: after krawczyk.Split the AES key does.
* C46: shares returned by Split share one array; appending to one overwrites the next. C47: the CSPRNG keeps a reference to the caller's IV.
* C73: the same for the other split functions and Regenerate; in SplitP, which evaluates byte by byte, the reads of the goroutines and one share give the whole secret.
* C66: the comments in polynomial.go claim safety from timing attacks; branches are indeed fixed, but table reads at secret indices are not: Combine's reads determine the
  shares, Split's reads with one share determine the bytes of the secret that are handled one by one. (On amd64 with SSSE3 but not AVX2, a length that is a multiple of 16 is
  multiplied twice, the second time byte by byte; with AVX2 a rest of exactly 32 bytes misses the vector code. Harmless for the results.)
* krawczyk.go compares `len(secret)` with `math.MaxUint32`, a constant that does not fit into a 32-bit `int`: package krawczyk compiles only where `int` has 64 bits, so C68 and C88 treat package shamir only.
* C52/C53: with math/rand the coefficients can be predicted from shares (C81: and the keys of later calls with them); there are at most 2^31-1 different runs.

## 6. Testing the theorems against wrong programs

`tools/mutate.py` applies an edit to the model in a scratch copy, rebuilds, admits each proof that breaks and records which property
theorems then depend on an admitted proof ("lost"). A claim made false by the edit must be among the lost ones. Results: seeded/LOG.jsonl.
The entries whose names begin with `sw` come from an automatic sweep (`tools/sweeplog.py`): one small edit in each definition of the model, stopped at the first
proof that breaks; the theorems listed are those whose proofs use it. The edits that survive are marked, with the reason why no claim becomes false.
