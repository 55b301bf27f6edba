# Formal model of fadhilkurnia/shamir in Rocq (Coq 8.16.1)

(Generated by `tools/design.py` from `tools/design_body.md`, `properties.jsonl` and `MANIFEST.json`.)

## 1. Approach

The Go code is modelled function by function as executable Gallina over `list byte` (`Coq.Init.Byte.byte`), `nat`, `N`, `Z`. Every
definition of the model cites the file and lines it models. Only the Coq standard library is used.

* **Outcomes.** A Go call ends in `Ret v`, `Fail e` (a returned error), `Panic p`, `UB` (assembly accesses memory outside its slice) or
  `Diverge` (the fuel of a Go loop without static bound is used up). Every slice expression, index expression and array access is
  bounds-checked in the model, so "no panic" is part of every `= Ret ..` theorem. "Terminates" means `Ret` for all large enough
  fuel, "loops forever" means `Diverge` for every fuel.
* **Randomness.** Two levels. In most theorems `math/rand` is arbitrary: the result of `rand.Perm(255)` is any permutation of 0..254,
  `rand.Read` fills its buffer from any stream, and the theorems quantify over all of them. Secrecy is a counting statement over all
  coefficient buffers. In C51-C53 the generator itself is modelled, with its state, seed reduction and rejection loop.
* **AES.** The block function is an arbitrary function parameter; nothing is assumed about it. CTR and OFB modes are modelled on top of
  it. A `CSPRNG` is the key stream that its key and IV determine, read from offset 0 at each call, as in the code.
* **Architectures.** `AddVector`/`MulConstVector` are modelled for the portable, amd64 (any CPU feature flags) and arm64 builds; Split takes the
  build as a parameter and theorems quantify over it. C54 models the `.s` files instruction by instruction and proves that they compute
  what the build models say.
* **Pools, memory and goroutines.** Pool buffers carry their stale contents (arbitrary). SplitP and the clients of the buffer pool are small-step
  machines; theorems quantify over all schedules. Slices that share memory are modelled on a heap.
* **Properties the code does not have** are stated as exact characterisations (when does it fail, what is lost) with explicit
  attack or refutation theorems. See section 5.

## 2. Files (rocq/theories)

| files | contents |
|---|---|
| `GoSem`, `Bytes` | outcome monad, bounds-checked slices, loops; byte arithmetic |
| `GaloisTables`, `ShamirTables` | the tables of galois/tables.go and shamir/tables.go, generated from the Go source by a script |
| `Galois`, `Vector`, `Csprng`, `Randomizer`, `RandomizerNew`, `Pool`, `Polynomial`, `Shamir`, `SplitP`, `Krawczyk`, `Worker`, `Main` | the model of the Go files of the same name |
| `Libs`, `AES`, `MathRand` | models of library code that is not in /repo (reedsolomon, AES modes, math/rand) |
| `Memory`, `MemCalls`, `KrMem`, `KrSplitMem`, `SplitPMem`, `Concurrency` | slices on a heap, calls working on that heap, goroutines sharing the pools |
| `Asm` | the assembler files as instruction lists, and the machines that run them |
| `ConcAll` | all calls of the API as code of goroutines over the shared pools |
| `RandCalls` | a sequence of calls that draw from math/rand, one after the other |
| `ConcRand` | all calls that draw from math/rand as code of goroutines over the shared source |
| `TraceMore` | the same records for SplitGeneric, SplitWithRandomizer(Old), SplitP and Regenerate |
| `KrTrace` | the same records for krawczyk's Split, SplitWithRandomizer and Combine |
| `IntWidth` | the split functions with ints of a given width |
| `Trace` | Split and Combine and those machines with records of table reads, branches and addresses |
| `Spec`, `SpecKr`, `SpecMem`, `SpecMemCalls`, `SpecKrMem`, `SpecKrSplitMem`, `SpecRemain`, `SpecConc`, `SpecRand`, `SpecAsm`, `SpecHist`, `SpecMain`, `SpecTrace`, `SpecJoint`, `SpecWidth`, `SpecConcAll`, `SpecConcRand`, `SpecTraceMore`, `SpecPools`, `SpecJointKr`, `SpecRS`, `SpecRz`, `SpecConcKr`, `SpecPerm`, `SpecRandCalls`, `SpecRemainPkg`, `SpecDetect`, `SpecSplitPMem`, `SpecAdaptive`, `SpecFrequency`, `SpecMix`, `SpecTree`, `SpecWidthMore`, `SpecSource`, `SpecBias` | independent specifications used in the theorem statements |
| `*Facts`, `*More`, `*Top`, `Derived`, `Secrecy`, `RandAttack`, `KrawczykCombine`, `KrawczykContract`, `ConcSplit`, `MemSplit`, `AsmAmd`, `AsmAvx`, `AsmArm`, `AsmTrace`, `CombineTrace`, `TraceMoreP`, `PoolFacts`, `PoolMachine`, `JointKrFacts`, `RemainKr` | proofs |
| `PfN` | proofs of the property theorems (`Cxx_name_pf`) |
| `PropsN` | the property theorems, each `exact Cxx_name_pf`, followed by `Print Assumptions`, with concrete examples that meet the hypotheses (generated from `PfN` by `tools/genprops.py`) |
| `ExData` | data for the examples |

## 3. Per property

All properties can be expressed in the model. Status and notes are in MANIFEST.json.

| id | property | modelled | proof | theorems |
|---|---|---|---|---|
| C01 | Split then Combine returns the secret | Split with pool buffers, makePolynomialsWithBuff, transposeMatrixBuffer, Horner evaluation with vector operations of every build; Combine | closed form of Split by loop invariants (SplitFacts), then the Lagrange interpolation theorem (PolyFacts, CombineFacts) | `C01_split_combine` |
| C02 | Shape of Split's shares | as C01 | closed form; also says which random byte each coefficient is | `C02_split_shape` |
| C03 | Split's argument contract is exact | the argument checks of the five functions over Z | case analysis; "iff" direction from the closed forms | `C03_split_errors`, `C03_splitgeneric_errors`, `C03_splitp_errors`, `C03_splitwithrandomizer_errors`, `C03_splitwithrandomizerold_errors`, `C03_errors_iff_invalid` |
| C04 | Fewer than threshold shares reveal nothing (Split) | Split as a function of the coefficient buffer | explicit bijection of buffers (XOR with a polynomial vanishing on the coalition), lifted to counting; exact number of buffers per view | `C04_secrecy`, `C04_exact` |
| C05 | Combine's contract and totality | Combine in the panic monad | division is never by zero for distinct tags; total case analysis | `C05_combine_contract` |
| C06 | Combine does not depend on the order of the parts | Combine | symmetry of Lagrange interpolation under permutations | `C06_combine_order` |
| C07 | Combine is interpolation at 0 | Combine | existence and uniqueness of the interpolating polynomial | `C07_combine_interpolates` |
| C08 | Corruption is never masked | Combine | injectivity of interpolation in one sample | `C08_corruption_visible`, `C08_one_part`, `C08_zero_tag` |
| C09 | Combine is linear | Combine | linearity of Lagrange interpolation | `C09_combine_linear` |
| C10 | Combining too few shares gives no information and no error | Split, Combine | counting as C04 | `C10_too_few_shares` |
| C11 | SplitGeneric agrees with Split | SplitGeneric | closed form, comparison with Split, counting | `C11_generic_combine`, `C11_generic_agrees`, `C11_generic_secrecy` |
| C12 | SplitP is schedule independent | SplitP as a small-step machine: caller, one goroutine per 1024-byte chunk, WaitGroup, locked random source | invariant over all schedules; disjointness of written cells; progress | `C12_any_schedule`, `C12_no_deadlock`, `C12_disjoint_writes`, `C12_footprint`, `C12_secrecy`, `C12_run_is_splitp` |
| C13 | SplitP's 32-bit length arithmetic | the uint32 arithmetic of SplitP | arithmetic modulo 2^32; what happens from 2^32-1023 bytes on | `C13_overflow` |
| C14 | Regenerate stays on the original polynomials | Regenerate with fuelled duplicate loop | interpolation | `C14_on_polynomials`, `C14_mix_combines`, `C14_same_tag_same_share` |
| C15 | Regenerate does not guarantee fresh tags | as C14 | the loop variable assignment is lost, so the tags are the raw bytes | `C15_raw_tags`, `C15_zero_tag_is_plaintext`, `C15_any_tags_occur` |
| C16 | Regenerate never returns when more than 256 tags would be needed | as C14 | pigeonhole on 256 tags for divergence for every fuel, recurrence of every byte for termination | `C16_hangs`, `C16_terminates`, `C16_negative_panics` |
| C17 | Regenerate's argument contract | as C14 | case analysis | `C17_contract` |
| C18 | SplitWithRandomizer then Combine returns the secret | SplitWithRandomizer(Old), CSPRNG with fixed key stream | closed form | `C18_randomizer_combine`, `C18_randomizerold_combine` |
| C19 | When SplitWithRandomizer fails to return | GetUniqueBytes with fuelled loop | exact characterisation of termination | `C19_large`, `C19_old`, `C19_small`, `C19_three_equal_hang` |
| C20 | Zero tags of SplitWithRandomizer expose the secret | as C18 | tag arithmetic | `C20_zero_tag_small`, `C20_no_zero_tag_large`, `C20_no_zero_tag_old` |
| C21 | SplitWithRandomizer: threshold-1 shares reveal secret bytes | as C18 | explicit formula for the leaked bytes; counting statement refuted | `C21_leak`, `C21_secrecy_fails` |
| C22 | A randomizer repeats its output | CSPRNG.Read restarts at offset 0 | key stream algebra | `C22_read`, `C22_reuse_old`, `C22_reuse` |
| C23 | CSPRNG.Perm | CSPRNG.Perm | swap loop keeps a permutation | `C23_perm` |
| C24 | CSPRNG.GetUniqueBytes | CSPRNG.GetUniqueBytes | loop invariants for both branches | `C24_unique`, `C24_small`, `C24_large` |
| C25 | randomizer.Randomizer.Perm is not a permutation | randomizer.Randomizer.Perm | refutation with exact condition | `C25_not_a_permutation`, `C25_small` |
| C26 | randomizer.Randomizer.Read continues the stream | randomizer.Randomizer.Read | position invariant | `C26_read` |
| C27 | GalMultiply/GalAdd are GF(2^8) arithmetic | galois.go and its tables | kernel computation over all 65536 pairs (the whole domain), field axioms from log/exp | `C27_operations`, `C27_field` |
| C28 | Table based variants agree | log/exp and table variants, shamir tables | as C27 | `C28_mult`, `C28_div`, `C28_tables` |
| C29 | GalExp | GalExp with Go int wrap-around | exponent arithmetic modulo 255, overflow of the 64-bit product | `C29_power`, `C29_power_small`, `C29_negative`, `C29_exact`, `C29_overflow` |
| C30 | Vector operations are elementwise on every architecture | AddVector/MulConstVector of the portable, amd64 (any CPU flags) and arm64 builds, SIMD steps | block induction; nibble tables checked exhaustively | `C30_add_vector`, `C30_add_vector_batch_generic`, `C30_mul_const_vector` |
| C31 | AddVector on unequal lengths | as C30, unequal lengths | case analysis per build | `C31_generic`, `C31_shorter_first`, `C31_longer_first` |
| C32 | krawczyk Split then Combine returns the secret | krawczyk.Split/Combine, OFB, Reed-Solomon model, metadata layout | closed form; interpolation | `C32_split_combine` |
| C33 | Shape of krawczyk shares | as C32 | closed form | `C33_shape` |
| C34 | krawczyk.Split's argument contract | as C32 | case analysis | `C34_contract` |
| C35 | krawczyk.Combine rejects too few shares | as C32 | counting the distinct indices | `C35_too_few` |
| C36 | When krawczyk.Combine panics | krawczyk.Combine on arbitrary bytes | exact condition | `C36_panics` |
| C37 | krawczyk key secrecy | as C32 | reduction to C04 | `C37_metadata`, `C37_whole_view` |
| C38 | krawczyk.SplitWithRandomizer publishes its key | krawczyk.SplitWithRandomizer | tags are key bytes | `C38_key_published`, `C38_sixteen_decrypt` |
| C39 | krawczyk.SplitWithRandomizer reuses the key stream | as C38 | equal key streams cancel | `C39_two_time_pad` |
| C40 | krawczyk.SplitWithRandomizer then Combine | as C38 | closed form | `C40_randomizer_combine`, `C40_errors`, `C40_shape` |
| C41 | encrypt and decrypt | aes.go, OFB | stream XOR is an involution; OFB specification | `C41_encrypt_decrypt`, `C41_ofb`, `C41_prefix` |
| C42 | Worker dispatch and round trip | worker.go | composition | `C42_split_errors`, `C42_combine_dispatch`, `C42_round_trip`, `C42_same_tags` |
| C43 | Buffer pool: bounded, FIFO, exclusive | utils/bufferpool.go as shared channel; goroutines as programs with single byte accesses | invariants over all interleavings; ownership; isolation (every interleaving is like running alone) | `C43_bounded`, `C43_never_blocks`, `C43_fifo`, `C43_operations`, `C43_exclusive`, `C43_no_race`, `C43_isolated` |
| C44 | Results do not depend on pool history | sequences of calls over the pool | induction on the history | `C44_split`, `C44_randomizer`, `C44_pool_bounded` |
| C45 | SplitWithRandomizer leaks across calls | as C44 | explicit second call | `C45_coefficients`, `C45_leak` |
| C46 | Shares returned by Split share memory | heap with slices (array, offset, length, capacity) | computation on the heap; append | `C46_split_append`, `C46_randomizer_append`, `C46_randomizerold_append`, `C46_generic_independent`, `C46_splitp_independent`, `C46_kr_independent`, `C46_kr_randomizer_independent` |
| C47 | NewCSPRNGWithKeyIV keeps a reference to the caller's IV | NewCSPRNGWithKeyIV on the heap | aliasing of the IV | `C47_short_panics`, `C47_reads_iv_later`, `C47_later_stores`, `C47_iv_store_changes_output`, `C47_ctr`, `C47_new` |
| C48 | Matrix helpers | transposeMatrixBuffer, transpose | loop invariants | `C48_transpose_buffer`, `C48_transpose` |
| C49 | All split variants produce the same share format | all split functions | closed forms compared | `C49_split`, `C49_generic`, `C49_splitp`, `C49_randomizer`, `C49_randomizerold`, `C49_format_combines` |
| C50 | Concurrent calls do not disturb each other | Split and SplitWithRandomizer as goroutine programs | C43 isolation + refinement of the program to the sequential model | `C50_concurrent_calls`, `C50_concurrent_split`, `C50_no_deadlock` |
| C51 | Splitting with math/rand always terminates and is correct | math/rand 1.17 generator: additive lagged Fibonacci, Int31n, Perm, Read | Perm yields a permutation; termination of rejection sampling from any state | `C51_perm`, `C51_split`, `C51_splitgeneric`, `C51_krawczyk`, `C51_splitp`, `C51_history` |
| C52 | How predictable shares made with math/rand are | as C51 | recurrence of the output words; explicit prediction of coefficients | `C52_recurrence`, `C52_generic_broken`, `C52_split_broken`, `C52_one_share_formula` |
| C53 | How few runs the seed allows | Seed | seed is reduced modulo 2^31-1; counting | `C53_seed_classes`, `C53_few_results`, `C53_few_secrets`, `C53_csprng`, `C53_next_bytes`, `C53_seedrand` |
| C54 | The assembler routines, instruction by instruction | vector_amd64.s and vector_arm64.s as instruction lists run by machines with registers, flags and flat memory | symbolic execution of one iteration, induction over iterations, equality with the block model of C30 | `C54_amd64_mul`, `C54_amd64_mulxor`, `C54_amd64_xor`, `C54_arm64`, `C54_tables`, `C54_deterministic`, `C54_model_mul`, `C54_model_xor`, `C54_model_arm64`, `C54_overrun` |
| C55 | krawczyk.Combine's complete contract | krawczyk.Combine on arbitrary pieces | complete case analysis against an independent specification | `C55_contract` |
| C56 | krawczyk pieces are not authenticated | as C55 | XOR of a ciphertext piece carries through | `C56_tamper_split`, `C56_tamper_randomizer` |
| C57 | A single shamir participant can steer the recovered secret | shamir.Combine | linearity | `C57_targeted` |
| C58 | krawczyk.Combine does not need the exact parameters | as C55 | RS model | `C58_split_params`, `C58_randomizer_params` |
| C59 | Correctness and secrecy survive any history of Regenerate | histories of Split and Regenerate | induction on the history; counting as C04 over the union of old and new tags | `C59_history_combines`, `C59_history_tags`, `C59_history_secrecy` |
| C60 | Regenerating from too few shares breaks the threshold | Regenerate with too few parts | explicit tag x1*x2/(x1+x2+x3) | `C60_underfull`, `C60_any_threshold` |
| C61 | The demonstration program | main.go | induction on the doubling loop | `C61_check`, `C61_measurements`, `C61_empty`, `C61_no_iv`, `C61_main` |
| C62 | Calls leave the caller's memory alone and return fresh slices | calls that load and store through slices of one heap, with both pools in the state (MemCalls.v); client programs (SpecMemCalls.v) | loop simulation between the memory program and the value program, with a write footprint per step; induction on client programs | `C62_split`, `C62_splitwithrandomizer`, `C62_splitgeneric`, `C62_combine`, `C62_regenerate`, `C62_keeps`, `C62_history` |
| C63 | What krawczyk.Combine does to the memory of its shares | krawczyk.Combine on the heap of C62 (KrMem.v), with the in-place reconstruction documented by the Reed-Solomon library | byte-wise write footprints; the scan keeps windows of the shares, which are pairwise apart; simulation of the value program | `C63_combine`, `C63_no_stubs`, `C63_overwrites` |
| C64 | The remaining split functions do not touch the caller's memory, alone or in any program | krawczyk.Split, krawczyk.SplitWithRandomizer and SplitWithRandomizerOld on the heap of C62 (KrSplitMem.v), and programs over both packages (SpecKrSplitMem.v); SplitP with goroutines that load and store through slices (SplitPMem.v) | simulation of the value programs phase by phase (all phases only allocate, except the shamir call of C62); invariant over all reachable client states | `C64_split`, `C64_splitwithrandomizer`, `C64_old`, `C64_history`, `C64_splitp`, `C64_history_splitp` |
| C65 | Split leaves the secret in the clear in the package's buffer pool until the next split | mSplit and mSplitWithRandomizer of MemCalls.v and the programs of SpecMemCalls.v; SpecRemain.v says what it means for a buffer in the pool to hold the secret | mSplitRest_strong (MemSplit.v) follows the two buffers through fill, transpose, evaluation and Put; functions that never touch a pool commute with replacing the pools (poolfree, RemainFacts.v), which with C62 on empty pools shows they leave every array alone; induction over the program | `C65_split`, `C65_splitwithrandomizer`, `C65_history`, `C65_packages` |
| C66 | What the access pattern of Split and Combine shows | Trace.v: the functions of Vector.v, Polynomial.v and Shamir.v with a record of table reads and data-dependent branches added, and the machines of Asm.v with a record of program counter and addresses; SpecTrace.v says what is recorded | erasure lemmas (same results as the model without records); exact records by loop invariants (TraceFacts.v); injectivity by cutting equal records into blocks of equal length (CombineTrace.v); a step of the machines preserves 'same but for the bytes' (AsmTrace.v) | `C66_mulconstvector`, `C66_split`, `C66_split_blind`, `C66_split_leak`, `C66_combine_branches`, `C66_combine_leak`, `C66_asm_amd64`, `C66_asm_arm64`, `C66_asm_amd64_faithful`, `C66_asm_arm64_faithful` |
| C67 | Secrecy of any sequence of splits against an adaptive attacker | the value models of Split, SplitGeneric and SplitP called repeatedly on one byte stream by an adaptive attacker (SpecJoint.v) | the count over long strings is the sum over the part the first call reads; per call the answers for the two secrets are permutations of each other (C04, C11, C12); induction on the number of calls (JointFacts.v) | `C67_many_splits` |
| C68 | No silent integer overflow in the split functions, for any width of int | the four split functions a second time with W-bit wrapping ints and a bounded allocator (IntWidth.v); SpecWidth.v states what fits | simulation (same outcome or panic) of each function by its unbounded version when the sizes fit; otherwise the window with number (wrapped size)/(len+1) has an end index that is negative or beyond the array (IntWidthFacts.v, IntWidthTop.v) | `C68_int`, `C68_split`, `C68_splitwithrandomizer`, `C68_splitwithrandomizerold`, `C68_splitgeneric` |
| C69 | Krawczyk shares below the threshold reveal no more than the ciphertext | krSplit of Krawczyk.v; attackers are arbitrary boolean functions of the view, probabilities are counts over all random strings (and keys) | the simulator runs the split with a zero key on the ciphertext masked with that key's OFB stream; equal pieces by the OFB equation, equal view counts by C37_whole_view, summed over views (Pf22.v) | `C69_simulator`, `C69_reduction` |
| C70 | Concurrent use of the whole API | the machine of Concurrency.v with all functions of the API as client code (ConcAll.v); SpecConcAll.v states what a correct answer is | each call keeps the rule of the pool (C43 then gives exclusiveness and isolation), and alone it computes what the sequential function computes on some pool contents; those do not matter (ConcAllFacts.v, Pf23.v) | `C70_concurrent_api`, `C70_no_deadlock` |
| C71 | Concurrent calls share the random source safely | programs whose steps are the operations on the locked source of math/rand (ConcRand.v, coinductive since redrawing may go on for ever), run by a machine over the generator of MathRand.v, and by the ideal world of SpecConcRand.v | a step-indexed relation between programs that read in step, the bytes of one XORed with a mask: with the identity it gives safety, with the mask of Secrecy.v the count for adaptive schedulers (induction over the actions); termination by well-founded induction over the threads together and the recurrence of the generator for redrawn words (ConcRandFacts.v, ConcRandSecret.v, ConcRandSafe.v, ConcRandEnd.v) | `C71_results`, `C71_split_ordinary`, `C71_splitp_ordinary`, `C71_krawczyk_ordinary`, `C71_all_end`, `C71_alone`, `C71_secrecy` |
| C72 | When krawczyk.SplitWithRandomizer returns, and what a zero metadata tag gives away | krSplitWithRandomizer of Krawczyk.v over the generator of Csprng.v; the rule by which tag bytes are picked is the rule picks of Spec.v | inversion of the call (krSWR_outcome), the characterisation of GetUniqueBytes (C27-C28) and Perm, evaluation of a polynomial at 0, and the contract of decrypt on a prefix of the stream | `C72_large`, `C72_small`, `C72_zero_tag`, `C72_no_zero_tag_large` |
| C73 | What the access pattern of SplitGeneric, SplitWithRandomizer(Old), SplitP and Regenerate shows | the functions once more with records of branches and table reads (TraceMore.v, in the style of Trace.v); the theorems include that without the records they are the functions of Shamir.v; for SplitP the records of each step of the machine of SplitP.v, per goroutine | the records of Horner's scheme in closed form, an invariant over all schedules of SplitP that says what each goroutine has left so far, injectivity of lists of records of equal length; for Regenerate induction over the loops with two runs side by side | `C73_generic`, `C73_old`, `C73_randomizer`, `C73_generic_blind`, `C73_old_blind`, `C73_randomizer_blind`, `C73_generic_leak`, `C73_old_leak`, `C73_randomizer_leak`, `C73_splitp`, `C73_splitp_blind`, `C73_splitp_leak`, `C73_regenerate_branches`, `C73_regenerate_leak` |
| C74 | Pool buffers are given back: no leak, no mixing of the pools, no growth | the machine of Concurrency.v and ConcAll.v; SpecPools.v counts the pool events of a history (a goroutine that panics ends without its deferred Puts, as in a program that the panic ends; the theorems about the end exclude it) | a program logic that tracks the pool and number of every buffer held (PoolFacts.v), and an invariant of the machine that accounts for every buffer ever created (PoolMachine.v) | `C74_bounded`, `C74_no_leak`, `C74_own_pool`, `C74_no_growth`, `C74_all_back` |
| C75 | Secrecy of any mixture of shamir and krawczyk splits against an adaptive attacker | krSplit, Split, SplitGeneric, SplitPRun as for C67 and C69, all reading one random stream; SpecJointKr.v: the game with shares and the game with ciphertexts | the breaker replays the attacker, answering krawczyk requests with the simulator of C69 and shamir requests with left secrets; induction over the requests, exchanging sums over the keys and the other random bytes (JointKrFacts.v) | `C75_reduction`, `C75_hiding` |
| C76 | krawczyk.Split leaves its AES key in the clear in the buffer pool of package shamir | mKrSplit and mKrSplitWithRandomizer on memory (KrSplitMem.v) with the pools of MemCalls.v | the call is followed to the shamir split on key and length (RemainKr.v), where C65 applies; pasting the shares together does not touch the arrays of the pool | `C76_split`, `C76_splitwithrandomizer`, `C76_history`, `C76_packages` |
| C77 | The pieces are the matrix code: any threshold of them can be inverted | krSplit, krSplitWithRandomizer (Krawczyk.v), the codec of Libs.v (by interpolation); SpecRS.v defines matrices, products, inverses and the library's coding matrix independently | coefficients obtained with the inverse of the top square interpolate the data, so by uniqueness matrix product and Lagrange interpolation agree; the inverses are built from the coefficients of the Lagrange basis (RSFacts.v) | `C77_invertible`, `C77_split`, `C77_randomizer`, `C77_encode`, `C77_reconstruct` |
| C78 | One Randomizer never uses a key stream byte twice | NewRandomizer, rzRead, rzPerm and histories of calls (Randomizer.v, RandomizerNew.v), NewCSPRNG and Read (Csprng.v, Worker.v); SpecRz.v: how many key stream bytes a call uses and where it starts | induction over the history; the key stream blocks are the AES images of different counters, and AES with a fixed key is injective | `C78_history`, `C78_seed`, `C78_blocks` |
| C79 | Secrecy of concurrent splits with shamir and krawczyk against an attacker who controls the interleaving | the calls as programs that draw from the shared source (ConcRand.v), the attacker and its views (SpecConcRand.v, SpecConcKr.v), the breaker of the cipher (SpecJointKr.v) | each real goroutine runs in step with a simulated one up to an XOR of the bytes it reads; a simulated krawczyk goroutine shares a constant key and uses a ciphertext from the breaker's oracle; induction over the actions, counting with weights so that unused keys and coins cancel (ConcKrFacts.v) | `C79_reduction`, `C79_hiding`, `C79_equal_secrets` |
| C80 | The tags of SplitWithRandomizerOld, and of the randomizer splits from 20 parts on, give away coefficients and key bytes | the functions as in C19/C21/C38; the partners exchanged by the shuffle and when an element is undisturbed (SpecPerm.v) | invariants of the exchanges of Perm: what an undisturbed element holds at the end, and conversely that a value 255-c found in the middle must have been moved there by step c, which fixes key stream byte c (PermFacts.v); then the polynomial of byte 0 or p is known but for its constant term (Pf33.v) | `C80_leak_old`, `C80_leak_large`, `C80_secrecy_fails_old`, `C80_secrecy_fails_large`, `C80_key` |
| C81 | Shares made with math/rand predict later keys | the generator of math/rand as in C51-C53, threaded from one call to the next (RandCalls.v) | the shares and the prefix fix the coefficients of the prefix (Vandermonde), hence 607 consecutive words, hence by the recurrence all later ones; what is drawn next is a function of these (Pf34.v) | `C81_next_bytes`, `C81_next_csprng`, `C81_next_krawczyk` |
| C82 | Altered shares can be found and corrected by recombining, and how many shares that takes | Combine and Split as in C01-C08; `without`, `claims_to_be`, `wrong`, `consistent` (SpecDetect.v) say which parts are combined | two polynomials of degree below m that agree at m points are equal; leaving out one part agrees with leaving out another only if all parts lie on one polynomial; for the limit, add to one polynomial the product of (x - tag) over threshold-1 tags (DetectFacts.v, Pf36.v) | `C82_agree`, `C82_single`, `C82_correct`, `C82_limit` |
| C83 | Secrecy of splits and regenerated shares against an attacker who collects shares over time | the calls as in C04, C11, C12 and C14; the game (`serve`, `playOn`, `seen`, SpecAdaptive.v) only decides which call is made and which share is shown, all splits take their bytes from one source | two runs side by side: as long as the shares that will be shown agree, all replies agree (AdaptiveFacts.v: step_sim, sim); for the final list of shown tags XORing one fixed string to the random bytes makes them agree, which is a bijection between the runs with the left and with the right secrets that give this transcript (Pf38.v) | `C83_adaptive` |
| C84 | How often the randomizer splits and Regenerate give no usable shares: exact counts | the calls as in C14, C18 and C19, on key streams and random strings that are counted (`count` over `all_strings`); the numbers are defined in SpecFrequency.v by recursions over numbers of byte values only | with few parts the call is decided by C19/C20's selection rule; the bytes fall in classes (fresh pair, half-taken pair, partner of 255, other) whose sizes change by fixed amounts with every byte taken (FrequencyFacts.v: take_fresh, take_half, take_spare), so the count is the recursion's; Regenerate by counting strings of distinct bytes; the percentages are evaluated with a proved faster form of the recursion (Pf39.v) | `C84_few_parts`, `C84_many_parts`, `C84_regenerate`, `C84_regenerate_zero`, `C84_percent` |
| C85 | Combining too few genuine shares with any other parts gives every result equally often | the calls as in C04, C11 and C12 and Combine; `mixed_gives`, `mixable` in SpecMix.v say what the attacker sees and what is combined | the shift of randomness that changes one of the combined genuine shares by a chosen amount and no other seen or combined share (Secrecy.v: shift_core), with C57's multiplier, turns runs with result v into runs with result v' one to one (MixFacts.v: mix_uniform); the exact number follows by summing over all results and C04's count of the view | `C85_split`, `C85_generic`, `C85_splitp`, `C85_chance`, `C85_zero_tag` |
| C86 | What the access pattern of krawczyk's Split, SplitWithRandomizer and Combine shows | `tkrSplit`, `tkrSplitWithRandomizer`, `tkrCombine` (KrTrace.v): the functions of Krawczyk.v with the records of the inner shamir calls (Trace.v, TraceMore.v); specification: SpecTrace.v, SpecKr.v | erasure: without records they are the functions of Krawczyk.v (KrTraceFacts.v); inversion of a returning call to the inner shamir call (tkrSplit_inner, tkrCombineCap_inner); then C66 and C73 on key and length; the secret from the pieces by uniqueness of Reed-Solomon decoding and of OFB under the same key (kr_shape_secret) | `C86_split`, `C86_randomizer`, `C86_split_blind`, `C86_split_leak`, `C86_split_secret`, `C86_combine_branches`, `C86_combine_metadata`, `C86_combine_secret` |
| C87 | Splitting shares again: any tree of splits keeps the secret from everyone who is not qualified | the calls as in C04, C11 and C12 and Combine; `tree`, `deal`, `qualified`, `recover` in SpecTree.v say how shares are handed out and put together again | induction on the tree (TreeFacts.v): the shares nobody is qualified for may be replaced by any others without changing the counts (handOut_secret: exchange of the order of counting), so the counts depend on the shares people are qualified for only, fewer than threshold, whose joint distribution does not depend on the secret (C67's answer_any); the adaptive attacker by induction on its steps, counting apart the runs with each possible view (corrupt_counts); recovery by C01, C11, C12 | `C87_secrecy`, `C87_adaptive`, `C87_recover`, `C87_dealt`, `C87_one_call` |
| C88 | Combine, Regenerate and SplitP with machine integers and bounded memory | Combine, Regenerate and the allocation phase of SplitP with a W-bit int and a limit on allocations (IntWidthMore.v); the goroutines of SplitP are those of SplitP.v, whose uint32 counters are explicit | equality of the two models statement by statement (IntWidthMoreFacts.v) where the sizes fit; where they do not, the first make panics; the 32-bit corollary from C12, since 2^31 < 2^32-1024 | `C88_combine`, `C88_regenerate`, `C88_regenerate_many`, `C88_splitp`, `C88_splitp_32` |
| C89 | Secrecy with random bytes that are not ideal | the games of C67, C75, C83 and C87, run on the strings of an arbitrary list instead of all strings; `advantage`, `distance`, `gap` in SpecSource.v are differences of probabilities, multiplied out | the triangle inequality applied to the equal counts of C67, C83 and C87 (SourceFacts.v: gap_general); the distance bounds twice every advantage since the deviations of a test and of its negation cancel; guesses by exchanging the order of counting and C87's equality | `C89_many_splits`, `C89_collector`, `C89_tree`, `C89_krawczyk`, `C89_guessing`, `C89_ideal`, `C89_distance` |
| C90 | How far CSPRNG.Perm is from a uniform shuffle | Perm and the split functions of C19 on the key streams that begin with the strings of `all_strings M`; `remainders` in SpecBias.v counts byte values | an invariant of the exchanges (PermN_ind): after the second one the last place is not touched again; counting strings by their first two bytes (BiasFacts.v) | `C90_remainders`, `C90_first`, `C90_last`, `C90_split`, `C90_split_old` |
| C91 | What Regenerate makes of altered or foreign parts | Regenerate as in C14; `replace` of Spec.v alters one part | parts that Combine accepts are a sharing of its result with as many coefficients as parts (parts_sharing), so C14 applies; the Lagrange basis polynomial of the altered part vanishes exactly at the other tags | `C91_consistent`, `C91_one_part`, `C91_spreads`, `C91_steer` |
| C92 | What altered pieces do to krawczyk.Combine when pieces are missing | krawczyk as in C33 and C55; `xor_piece` and `rs_completion` of SpecKr.v | linearity of the code: the completion of the altered pieces is the completion of the genuine ones XORed with that of the differences (linear_core); a polynomial vanishing at threshold-1 of threshold points vanishes at another point only if it vanishes everywhere (zero_elsewhere) | `C92_split`, `C92_randomizer`, `C92_one_split`, `C92_one_randomizer` |
| C93 | What altered metadata does to krawczyk.Combine | krawczyk as in C33 and C55; `rs_completion`, `ofb_cipher`, `le32_value` of SpecKr.v; shamir's Combine | the scan of shares made of any metadata and pieces (made_scanned), linearity of the code (pieces_completion), the contract C55; C57's multiplier for the length | `C93_split`, `C93_randomizer`, `C93_resize`, `C93_resize_randomizer` |
| C94 | Detecting and correcting wrong krawczyk shares with nothing but Combine | krawczyk as in C32 and C92; `wrong`, `consistent`, `without` of SpecDetect.v as in C82 | threshold+e shares contain threshold right ones (correct_core, for any function that recovers the secret); C92's exact description for the threshold shares left (detect_core) | `C94_correct_split`, `C94_correct_randomizer`, `C94_leave_out_split`, `C94_leave_out_randomizer` |
| C95 | The bounds for detecting and correcting wrong krawczyk shares are the best possible | krawczyk as in C32; `wrong`, `claims_to_be` of SpecDetect.v as in C82 | a change of the first byte of the secret changes only piece 0 and the parity pieces (first_byte_pieces); the received shares mix the two runs (limit_core) | `C95_limit_split`, `C95_limit_randomizer`, `C95_agree_split`, `C95_agree_randomizer` |

## 4. Trusted base

* **Coq's kernel** (8.16.1), including its bytecode virtual machine (`vm_compute` is used for the exhaustive checks over the byte domain
  and for the examples; `native_compute` is not used).
* **Assumptions.** `Print Assumptions` under every property theorem prints `Closed under the global context`: no axiom is used, neither from the standard library nor
  of our own. (`coqchk`/the gate also lists seven `Coq.ssr.ssrunder.Under_rel.*` entries: these are parameters of a module type of the standard
  library that is merely loaded; no theorem depends on them.)
* No functors, module types, `Declare Module`, `Admitted`, or disabled checks. `Section` variables are generalised at the end of their
  section.
* **The reading of the Go code**: the only tie to the code is that each definition follows the cited lines. The tables are transcribed by script.

### What is modelled

Everything in galois/, shamir/, krawczyk/, csprng/, randomizer/, utils/, worker/ and main.go that is reachable from an exported function, and the
assembler files. One simplification per item below.

| Go | model | simplification |
|---|---|---|
| slice lengths, `(len(secret)+1)*parts`, loop counters | `nat` | no overflow. For package shamir, C68 and C88 show that overflow of `int`, and allocations that are too large, can only lead to a panic (IntWidth.v, IntWidthMore.v). The 32-bit arithmetic of SplitP and the 64-bit product of GalExp *are* modelled with wrap-around |
| `parts`, `threshold`, `numNewShares` | `Z` | any integer, also negative |
| error values | one constructor per message | the texts are not modelled |
| `rand.Read` errors | none | math/rand's Read never fails |
| `math/rand` (C51-C53) | `MathRand.v`, from the Go 1.17 source | the 607 constants `rngCooked` are an arbitrary list of 607 words; the seed-dependent initial state is as in `Seed` |
| `crypto/aes` | arbitrary block function; key sizes 16/24/32 | `AES.v` (FIPS 197) is used in C78_blocks and in examples |
| `aesctrat.XORKeyStreamAt` | XOR with the CTR key stream from offset 0 | assumed to panic unless the IV has 16 bytes (C47) |
| `cipher.NewOFB`, `StreamReader`/`StreamWriter` | OFB key stream XOR | |
| `klauspost/reedsolomon` 1.9.15 | the systematic code by interpolation at the points 0..dataShards-1 (that this equals the product with "Vandermonde times inverse of its top square", which the library computes, is proved: C77); documented error cases | whether New accepts zero parity shards (it changed between releases) is a parameter `zp`; re-use of spare capacity of zero-length shards by ReconstructData is modelled in `KrMem.v` only; `KrSplitMem.v` assumes that the shards delivered by Split/Encode have no spare capacity and lie in new memory |
| `bytes.Buffer` Reset/Grow/Bytes | a backing array that is kept, with its contents, or replaced by a zeroed one | the capacity after growing is an arbitrary function (`grow_ok`: at least what was asked); Go 1.17's is an instance |
| buffer pools | FIFO channel, non-blocking Get/Put, deferred Puts in LIFO order | the garbage collector is not modelled |
| goroutines | interleaving of single pool operations and single byte accesses | sequentially consistent; justified by the race freedom that is proved (C43, C12) |
| SplitP | caller and goroutine steps, locked random source | `makePolynomial`'s `rand.Read` is one atomic step |
| assembler | registers, Z/N flags, flat memory with faults | other flags and timing are not modelled; instruction semantics transcribed from the manuals |
| memory layout | heap of arrays, slices = (array, offset, length, capacity) | returned shares are shown with their final contents (`Memory.v`); `MemCalls.v` runs calls step by step on the heap |
| main.go | printed lines without times | CFB ciphertexts are dropped by the program and not modelled |

Not modelled: cli/cli.go (its body is commented out), benchmarks and tests, data/*.py, timing side channels, the contents of error messages, memory
exhaustion.

## 5. Findings (properties a user would expect and the code does not have)

* C15: Regenerate's duplicate check changes only the loop variable: new shares can repeat old tags, repeat each other, or have tag 0, which is the
  secret in the clear. C16: it never returns when more than 256 tags would be needed. C60: it does not notice too few shares; C91: nor altered ones, whose errors it copies into the new shares.
* C19/C20: SplitWithRandomizer can hang, and can issue tag 0. C21: its tags are the coefficients, threshold-1 shares can reveal secret bytes; C80: so they can in SplitWithRandomizerOld and from 20 parts on. C22, C45: key
  stream reuse within and across calls.
* C25: randomizer.Perm is not a permutation. C90: CSPRNG.Perm is far from uniform: Perm(255) leaves the last element in place for 98.8 percent of the key streams.
* C13: SplitP goes wrong from 2^32-1023 bytes on.
* C29: GalExp overflows for huge exponents. C31: unequal lengths behave differently per build, up to memory corruption.
* C36: krawczyk.Combine panics on malformed shares. C38/C39: krawczyk.SplitWithRandomizer publishes its key in the tags and reuses the key stream. C56, C92: pieces are
  not authenticated; altered ones are mixed, undetected, into the missing ones. C93: nor is the metadata; one participant can cut the secret to any length. C72: a share of krawczyk.SplitWithRandomizer whose metadata tag is 0 holds the AES key in the clear. C41: OFB with constant zero IV. C63: krawczyk.Combine overwrites, in the caller's memory, the index byte and the spare capacity of a 22-byte share with
  the reconstructed piece, and with unlucky layouts other shares it has not read yet. C65: after Split the secret stays in the clear in a pool buffer until the next split; C76: after krawczyk.Split the AES key does.
* C46: shares returned by Split share one array; appending to one overwrites the next. C47: the CSPRNG keeps a reference to the caller's IV.
* C73: the same for the other split functions and Regenerate; in SplitP, which evaluates byte by byte, the reads of the goroutines and one share give the whole secret.
* C66: the comments in polynomial.go claim safety from timing attacks; branches are indeed fixed, but table reads at secret indices are not: Combine's reads determine the
  shares, Split's reads with one share determine the bytes of the secret that are handled one by one. (On amd64 with SSSE3 but not AVX2, a length that is a multiple of 16 is
  multiplied twice, the second time byte by byte; with AVX2 a rest of exactly 32 bytes misses the vector code. Harmless for the results.)
* krawczyk.go compares `len(secret)` with `math.MaxUint32`, a constant that does not fit into a 32-bit `int`: package krawczyk compiles only where `int` has 64 bits, so C68 and C88 treat package shamir only.
* C52/C53: with math/rand the coefficients can be predicted from shares (C81: and the keys of later calls with them); there are at most 2^31-1 different runs.

## 6. Testing the theorems against wrong programs

`tools/mutate.py` applies an edit to the model in a scratch copy, rebuilds, admits each proof that breaks and records which property
theorems then depend on an admitted proof ("lost"). A claim made false by the edit must be among the lost ones. Results: seeded/LOG.jsonl.
The entries whose names begin with `sw` come from an automatic sweep (`tools/sweeplog.py`): one small edit in each definition of the model, stopped at the first
proof that breaks; the theorems listed are those whose proofs use it. The edits that survive are marked, with the reason why no claim becomes false.
