{
"C67": [
"the value models of Split, SplitGeneric and SplitP called repeatedly on one byte stream by an adaptive attacker (SpecJoint.v)",
"the count over long strings is the sum over the part the first call reads; per call the answers for the two secrets are permutations of each other (C04, C11, C12); induction on the number of calls (JointFacts.v)"
],
"C68": [
"the four split functions a second time with W-bit wrapping ints and a bounded allocator (IntWidth.v); SpecWidth.v states what fits",
"simulation (same outcome or panic) of each function by its unbounded version when the sizes fit; otherwise the window with number (wrapped size)/(len+1) has an end index that is negative or beyond the array (IntWidthFacts.v, IntWidthTop.v)"
],
"C69": [
"krSplit of Krawczyk.v; attackers are arbitrary boolean functions of the view, probabilities are counts over all random strings (and keys)",
"the simulator runs the split with a zero key on the ciphertext masked with that key's OFB stream; equal pieces by the OFB equation, equal view counts by C37_whole_view, summed over views (Pf22.v)"
],
"C70": [
"the machine of Concurrency.v with all functions of the API as client code (ConcAll.v); SpecConcAll.v states what a correct answer is",
"each call keeps the rule of the pool (C43 then gives exclusiveness and isolation), and alone it computes what the sequential function computes on some pool contents; those do not matter (ConcAllFacts.v, Pf23.v)"
],
"C71": [
"programs whose steps are the operations on the locked source of math/rand (ConcRand.v, coinductive since redrawing may go on for ever), run by a machine over the generator of MathRand.v, and by the ideal world of SpecConcRand.v",
"a step-indexed relation between programs that read in step, the bytes of one XORed with a mask: with the identity it gives safety, with the mask of Secrecy.v the count for adaptive schedulers (induction over the actions); termination by well-founded induction over the threads together and the recurrence of the generator for redrawn words (ConcRandFacts.v, ConcRandSecret.v, ConcRandSafe.v, ConcRandEnd.v)"
],
"C72": [
"krSplitWithRandomizer of Krawczyk.v over the generator of Csprng.v; the rule by which tag bytes are picked is the rule picks of Spec.v",
"inversion of the call (krSWR_outcome), the characterisation of GetUniqueBytes (C27-C28) and Perm, evaluation of a polynomial at 0, and the contract of decrypt on a prefix of the stream"
],
"C73": [
"the functions once more with records of branches and table reads (TraceMore.v, in the style of Trace.v); the theorems include that without the records they are the functions of Shamir.v; for SplitP the records of each step of the machine of SplitP.v, per goroutine",
"the records of Horner's scheme in closed form, an invariant over all schedules of SplitP that says what each goroutine has left so far, injectivity of lists of records of equal length; for Regenerate induction over the loops with two runs side by side"
],
"C74": [
"the machine of Concurrency.v and ConcAll.v; SpecPools.v counts the pool events of a history (a goroutine that panics ends without its deferred Puts, as in a program that the panic ends; the theorems about the end exclude it)",
"a program logic that tracks the pool and number of every buffer held (PoolFacts.v), and an invariant of the machine that accounts for every buffer ever created (PoolMachine.v)"
],
"C75": [
"krSplit, Split, SplitGeneric, SplitPRun as for C67 and C69, all reading one random stream; SpecJointKr.v: the game with shares and the game with ciphertexts",
"the breaker replays the attacker, answering krawczyk requests with the simulator of C69 and shamir requests with left secrets; induction over the requests, exchanging sums over the keys and the other random bytes (JointKrFacts.v)"
],
"C76": [
"mKrSplit and mKrSplitWithRandomizer on memory (KrSplitMem.v) with the pools of MemCalls.v",
"the call is followed to the shamir split on key and length (RemainKr.v), where C65 applies; pasting the shares together does not touch the arrays of the pool"
],
"C77": [
"krSplit, krSplitWithRandomizer (Krawczyk.v), the codec of Libs.v (by interpolation); SpecRS.v defines matrices, products, inverses and the library's coding matrix independently",
"coefficients obtained with the inverse of the top square interpolate the data, so by uniqueness matrix product and Lagrange interpolation agree; the inverses are built from the coefficients of the Lagrange basis (RSFacts.v)"
],
"C78": [
"NewRandomizer, rzRead, rzPerm and histories of calls (Randomizer.v, RandomizerNew.v), NewCSPRNG and Read (Csprng.v, Worker.v); SpecRz.v: how many key stream bytes a call uses and where it starts",
"induction over the history; the key stream blocks are the AES images of different counters, and AES with a fixed key is injective"
],
"C79": [
"the calls as programs that draw from the shared source (ConcRand.v), the attacker and its views (SpecConcRand.v, SpecConcKr.v), the breaker of the cipher (SpecJointKr.v)",
"each real goroutine runs in step with a simulated one up to an XOR of the bytes it reads; a simulated krawczyk goroutine shares a constant key and uses a ciphertext from the breaker's oracle; induction over the actions, counting with weights so that unused keys and coins cancel (ConcKrFacts.v)"
],
"C80": [
"the functions as in C19/C21/C38; the partners exchanged by the shuffle and when an element is undisturbed (SpecPerm.v)",
"invariants of the exchanges of Perm: what an undisturbed element holds at the end, and conversely that a value 255-c found in the middle must have been moved there by step c, which fixes key stream byte c (PermFacts.v); then the polynomial of byte 0 or p is known but for its constant term (Pf33.v)"
],
"C81": [
"the generator of math/rand as in C51-C53, threaded from one call to the next (RandCalls.v)",
"the shares and the prefix fix the coefficients of the prefix (Vandermonde), hence 607 consecutive words, hence by the recurrence all later ones; what is drawn next is a function of these (Pf34.v)"
],
"C82": [
"Combine and Split as in C01-C08; `without`, `claims_to_be`, `wrong`, `consistent` (SpecDetect.v) say which parts are combined",
"two polynomials of degree below m that agree at m points are equal; leaving out one part agrees with leaving out another only if all parts lie on one polynomial; for the limit, add to one polynomial the product of (x - tag) over threshold-1 tags (DetectFacts.v, Pf36.v)"
],
"C83": [
"the calls as in C04, C11, C12 and C14; the game (`serve`, `playOn`, `seen`, SpecAdaptive.v) only decides which call is made and which share is shown, all splits take their bytes from one source",
"two runs side by side: as long as the shares that will be shown agree, all replies agree (AdaptiveFacts.v: step_sim, sim); for the final list of shown tags XORing one fixed string to the random bytes makes them agree, which is a bijection between the runs with the left and with the right secrets that give this transcript (Pf38.v)"
],
"C84": [
"the calls as in C14, C18 and C19, on key streams and random strings that are counted (`count` over `all_strings`); the numbers are defined in SpecFrequency.v by recursions over numbers of byte values only",
"with few parts the call is decided by C19/C20's selection rule; the bytes fall in classes (fresh pair, half-taken pair, partner of 255, other) whose sizes change by fixed amounts with every byte taken (FrequencyFacts.v: take_fresh, take_half, take_spare), so the count is the recursion's; Regenerate by counting strings of distinct bytes; the percentages are evaluated with a proved faster form of the recursion (Pf39.v)"
],
"C85": [
"the calls as in C04, C11 and C12 and Combine; `mixed_gives`, `mixable` in SpecMix.v say what the attacker sees and what is combined",
"the shift of randomness that changes one of the combined genuine shares by a chosen amount and no other seen or combined share (Secrecy.v: shift_core), with C57's multiplier, turns runs with result v into runs with result v' one to one (MixFacts.v: mix_uniform); the exact number follows by summing over all results and C04's count of the view"
],
"C86": [
"`tkrSplit`, `tkrSplitWithRandomizer`, `tkrCombine` (KrTrace.v): the functions of Krawczyk.v with the records of the inner shamir calls (Trace.v, TraceMore.v); specification: SpecTrace.v, SpecKr.v",
"erasure: without records they are the functions of Krawczyk.v (KrTraceFacts.v); inversion of a returning call to the inner shamir call (tkrSplit_inner, tkrCombineCap_inner); then C66 and C73 on key and length; the secret from the pieces by uniqueness of Reed-Solomon decoding and of OFB under the same key (kr_shape_secret)"
],
"C87": [
"the calls as in C04, C11 and C12 and Combine; `tree`, `deal`, `qualified`, `recover` in SpecTree.v say how shares are handed out and put together again",
"induction on the tree (TreeFacts.v): the shares nobody is qualified for may be replaced by any others without changing the counts (handOut_secret: exchange of the order of counting), so the counts depend on the shares people are qualified for only, fewer than threshold, whose joint distribution does not depend on the secret (C67's answer_any); the adaptive attacker by induction on its steps, counting apart the runs with each possible view (corrupt_counts); recovery by C01, C11, C12"
],
"C88": [
"Combine, Regenerate and the allocation phase of SplitP with a W-bit int and a limit on allocations (IntWidthMore.v); the goroutines of SplitP are those of SplitP.v, whose uint32 counters are explicit",
"equality of the two models statement by statement (IntWidthMoreFacts.v) where the sizes fit; where they do not, the first make panics; the 32-bit corollary from C12, since 2^31 < 2^32-1024"
],
"C89": [
"the games of C67, C75, C83 and C87, run on the strings of an arbitrary list instead of all strings; `advantage`, `distance`, `gap` in SpecSource.v are differences of probabilities, multiplied out",
"the triangle inequality applied to the equal counts of C67, C83 and C87 (SourceFacts.v: gap_general); the distance bounds twice every advantage since the deviations of a test and of its negation cancel; guesses by exchanging the order of counting and C87's equality"
],
"C90": [
"Perm and the split functions of C19 on the key streams that begin with the strings of `all_strings M`; `remainders` in SpecBias.v counts byte values",
"an invariant of the exchanges (PermN_ind): after the second one the last place is not touched again; counting strings by their first two bytes (BiasFacts.v)"
],
"C91": [
"Regenerate as in C14; `replace` of Spec.v alters one part",
"parts that Combine accepts are a sharing of its result with as many coefficients as parts (parts_sharing), so C14 applies; the Lagrange basis polynomial of the altered part vanishes exactly at the other tags"
],
"C92": [
"krawczyk as in C33 and C55; `xor_piece` and `rs_completion` of SpecKr.v",
"linearity of the code: the completion of the altered pieces is the completion of the genuine ones XORed with that of the differences (linear_core); a polynomial vanishing at threshold-1 of threshold points vanishes at another point only if it vanishes everywhere (zero_elsewhere)"
],
"C93": [
"krawczyk as in C33 and C55; `rs_completion`, `ofb_cipher`, `le32_value` of SpecKr.v; shamir's Combine",
"the scan of shares made of any metadata and pieces (made_scanned), linearity of the code (pieces_completion), the contract C55; C57's multiplier for the length"
],
"C94": [
"krawczyk as in C32 and C92; `wrong`, `consistent`, `without` of SpecDetect.v as in C82",
"threshold+e shares contain threshold right ones (correct_core, for any function that recovers the secret); C92's exact description for the threshold shares left (detect_core)"
],
"C95": [
"krawczyk as in C32; `wrong`, `claims_to_be` of SpecDetect.v as in C82",
"a change of the first byte of the secret changes only piece 0 and the parity pieces (first_byte_pieces); the received shares mix the two runs (limit_core)"
]
}