{"id": "C01", "title": "Message wire format is lossless and canonical", "statement": "Encoding a message whose sender and recipient are 32 bytes and decoding the bytes returns the same message; decoding any byte string of at least 77 bytes and re-encoding returns the same bytes; a byte string shorter than 77 bytes is never decoded (the call aborts).", "quantifier": "every message with 32-byte sender/recipient and any body; every byte string of any length", "why_tests_cant": "the two existing vectors sample single points; the claim ranges over all field values, body lengths and malformed inputs", "anchors": ["packages/interface/src/types/message.rs: From<Message> for HexBinary, From<HexBinary> for Message"]}
{"id": "C02", "title": "A message id pins down every field of the message", "statement": "If two well-formed messages have the same id then they are the same message, or their (different) encodings are an explicit Keccak-256 collision.", "quantifier": "every pair of well-formed messages", "why_tests_cant": "a test can compare a handful of pairs; the claim is injectivity of the preimage over an infinite set", "anchors": ["packages/interface/src/types/message.rs: Message::id", "packages/interface/src/types/crypto.rs: keccak256_hash"]}
{"id": "C03", "title": "Warp transfer payload is lossless for 32-byte recipients", "statement": "A token payload (32-byte recipient, 256-bit amount, metadata) encodes and decodes to itself, every byte string of >= 64 bytes is the encoding of what it decodes to, and shorter strings abort.", "quantifier": "every recipient of 32 bytes, amount below 2^256 and metadata; every byte string", "why_tests_cant": "infinite input space including malformed payloads", "anchors": ["packages/interface/src/warp/mod.rs: From<Message> for HexBinary, From<HexBinary> for Message"]}
{"id": "C04", "title": "Remote transfer announces exactly the amount debited", "statement": "A successful TransferRemote of amount a to recipient r produces a dispatched payload that the receiving warp route reads as (r, a).", "quantifier": "every recipient byte string the API accepts, every amount, both token modes and both token kinds", "why_tests_cant": "needs all recipient lengths: tests only use 32-byte recipients", "anchors": ["contracts/warp/native/src/contract.rs: transfer_remote", "contracts/warp/cw20/src/contract.rs: transfer_remote", "packages/interface/src/warp/mod.rs"]}
{"id": "C05", "title": "Multisig ISM metadata codecs are lossless", "statement": "Message-id multisig metadata and merkle-root multisig metadata decode to what was encoded when the fields have their nominal widths (signatures of 65 bytes each); the signature list a verifier reads is exactly the 65-byte chunks of the tail, and a trailing partial chunk is never read as a signature.", "quantifier": "all field values, any number of signatures, any trailing remainder", "why_tests_cant": "signature count and tail length are unbounded", "anchors": ["packages/interface/src/types/metadata.rs: MessageIdMultisigIsmMetadata, MerkleRootMultisigIsmMetadata"]}
{"id": "C06", "title": "Aggregate ISM metadata is delivered to the right module", "statement": "Encoding a per-module metadata map and decoding it with the module list gives every module its own metadata when the decoding list is in ascending address order without repeats.", "quantifier": "any number of modules, any metadata contents and lengths that fit the 32-bit offsets", "why_tests_cant": "number of modules and payload lengths are unbounded; the single test uses one sorted list of three", "anchors": ["packages/interface/src/types/metadata.rs: AggregateMetadata::{new,from_hex}, From<AggregateMetadata> for HexBinary"]}
{"id": "C07", "title": "Gas metadata is lossless and its refund address always resolves", "statement": "Gas metadata (gas limit, refund bytes) round-trips; a refund field of 20 or 32 bytes resolves to the bech32 address of exactly those bytes (32-byte values with 12 leading zeros meaning the 20-byte account), any other length to the caller's default, and resolving never aborts.", "quantifier": "every gas limit below 2^256, every refund byte string, every prefix", "why_tests_cant": "depends on rare byte patterns (leading zero runs) that examples do not hit", "anchors": ["packages/interface/src/types/metadata.rs: IGPMetadata, get_refund_address"]}
{"id": "C08", "title": "Address text and 32-byte form agree", "statement": "Encoding a 20- or 32-byte account under a chain prefix and decoding the text gives back the account; converting the text to the 32-byte form gives the zero-left-padded account; two 32-byte recipients with the same prefix map to the same address text only if they are equal.", "quantifier": "every valid lower-case prefix and every 20/32-byte account", "why_tests_cant": "all 2^256 accounts and all prefixes; checksum arithmetic over all of them", "anchors": ["packages/interface/src/types/bech32.rs: bech32_encode, bech32_decode, bech32_to_h256"]}
{"id": "C09", "title": "Incremental Merkle tree computes the root of the padded tree", "statement": "After inserting any sequence of leaves the tree's count is the number of leaves and its root is the root of the depth-32 binary Keccak tree whose leaves are the inserted values followed by zero values; inserting beyond 2^32-1 leaves fails and changes nothing.", "quantifier": "every sequence of leaves of any length", "why_tests_cant": "sequences are unbounded and the carry pattern depends on every bit of the count", "anchors": ["packages/interface/src/types/merkle.rs: MerkleTree::{insert,root,root_with_ctx}, ZERO_HASHES"]}
{"id": "C10", "title": "Merkle proofs are complete and binding", "statement": "For each inserted leaf the sibling path of the padded tree makes branch_root return the tree's root; and any path that makes branch_root return that root for index i shows leaf i, unless the path exhibits an explicit Keccak collision.", "quantifier": "every leaf sequence, index and candidate proof", "why_tests_cant": "quantifies over all candidate (possibly forged) proofs", "anchors": ["packages/interface/src/types/merkle.rs: MerkleTree::branch_root"]}
{"id": "C11", "title": "Zero-hash table is right", "statement": "Every entry of the zero-hash table is the Keccak-256 of the previous entry concatenated with itself, starting from 32 zero bytes.", "quantifier": "all 32 entries", "why_tests_cant": "the roots used in tests only touch low entries; a wrong high entry would go unnoticed", "anchors": ["packages/interface/src/types/merkle.rs: ZERO_HASHES"]}
{"id": "C12", "title": "Ownership changes hands only with both parties' consent", "statement": "Along any history of calls the owner changes from A to B only when A (as owner) offered ownership to B and B claimed it, with no revocation by A in between; no one but the owner can open or revoke an offer, only one offer can be open, and rejected calls change nothing.", "quantifier": "every sequence of ownership calls by any senders in any order", "why_tests_cant": "histories are unbounded; tests check one call at a time", "anchors": ["packages/ownable/src/lib.rs: handle, init_ownership_transfer, revoke_ownership_transfer, claim_ownership"]}
{"id": "C13", "title": "Pausing is owner-only and strictly alternates", "statement": "The paused flag reported by a contract flips exactly on the owner's successful Pause/Release calls, which strictly alternate; everyone else's calls fail and change nothing.", "quantifier": "every history of pause/release calls by any senders", "why_tests_cant": "unbounded histories", "anchors": ["packages/pausable/src/lib.rs"]}
{"id": "C14", "title": "Route lookup returns the owner's last setting", "statement": "After any history of route updates the route reported for a domain is the value of the last accepted update for that domain (none if it was cleared or never set), and only the owner's updates are accepted.", "quantifier": "every history of single and batch route updates, every domain", "why_tests_cant": "unbounded histories, overlapping batches", "anchors": ["packages/router/src/lib.rs: handle, set_route, set_routes, get_route"]}
{"id": "C15", "title": "Paged listings cover everything exactly once", "statement": "Fetching pages by repeatedly passing the last key of the previous page, with any positive page limit, returns every stored entry exactly once in key order (ascending or descending) and terminates.", "quantifier": "every stored map, every page limit, both orders", "why_tests_cant": "depends on boundary alignment between page size and map size for all sizes", "anchors": ["packages/interface/src/lib.rs: range_option, get_and_check_limit", "packages/router/src/lib.rs: get_routes", "contracts/igps/core/src/query.rs: list_gas_for_domains", "contracts/hooks/routing-custom/src/lib.rs: list_custom_hooks"]}
{"id": "C16", "title": "Dispatch emits exactly the requested message", "statement": "A successful Dispatch returns the id of the message with version 3, the current nonce, the mailbox's domain, the caller as 32-byte sender, and the caller's destination, recipient and body; that id becomes the latest dispatched id, the nonce grows by one and the required hook and the chosen hook are each called once with exactly this message.", "quantifier": "every mailbox state, caller, funds, dispatch request and every behaviour of the hooks", "why_tests_cant": "all inputs, hooks' answers are adversarial", "anchors": ["contracts/core/mailbox/src/execute.rs: dispatch", "packages/interface/src/core/mailbox.rs: DispatchMsg::to_msg, get_hook_addr"]}
{"id": "C17", "title": "Nonces are gapless and message ids never repeat", "statement": "Over any history the i-th successful dispatch carries nonce i, so any two dispatched messages differ and have different ids unless they exhibit an explicit Keccak collision; at 2^32-1 dispatches the mailbox refuses rather than wraps.", "quantifier": "every history of calls to the mailbox, including re-entrant ones", "why_tests_cant": "unbounded histories and the counter's end of range", "anchors": ["contracts/core/mailbox/src/execute.rs: dispatch", "contracts/core/mailbox/src/state.rs: NONCE"]}
{"id": "C18", "title": "Dispatch splits the payment correctly", "statement": "On a successful dispatch the required hook receives exactly the fee it quoted, the chosen hook receives everything else the caller sent, nothing stays in or is taken from the mailbox; if the funds do not cover the required fee the dispatch fails.", "quantifier": "every funds list, every quoted fee list (duplicates and zero amounts included), every denomination", "why_tests_cant": "multi-denomination accounting for all quotes", "anchors": ["contracts/core/mailbox/src/execute.rs: dispatch"]}
{"id": "C19", "title": "Paying the quote is enough", "statement": "If the mailbox quotes a total for a dispatch request, sending exactly that total makes the mailbox accept it and hand the required hook its quote and the other hook its own quote.", "quantifier": "every pair of hook quotes and every request with a 32-byte recipient", "why_tests_cant": "needs agreement of two code paths for all quote lists", "anchors": ["contracts/core/mailbox/src/query.rs: quote_dispatch", "contracts/core/mailbox/src/execute.rs: dispatch"]}
{"id": "C20", "title": "A message is delivered only if verified, local, and well-versioned", "statement": "A successful Process means: the bytes decode to a message of version 3 addressed to this domain, the recipient's own security module (else the default one) answered verified for exactly these metadata and message bytes, the message was not delivered before; and the only effect is recording the delivery and one call to the recipient with the message's origin, sender and body.", "quantifier": "every mailbox state, relayer, metadata, message bytes and behaviour of recipient and modules", "why_tests_cant": "all inputs and adversarial answers", "anchors": ["contracts/core/mailbox/src/execute.rs: process"]}
{"id": "C21", "title": "At-most-once delivery", "statement": "Over any history - including recipients and hooks that call back into the mailbox during delivery - a given message id is processed at most once, and once recorded its relayer and block height never change.", "quantifier": "every history of transactions over a chain with arbitrary other contracts", "why_tests_cant": "re-entrancy and unbounded histories", "anchors": ["contracts/core/mailbox/src/execute.rs: process", "contracts/core/mailbox/src/state.rs: DELIVERIES"]}
{"id": "C22", "title": "Only the owner reconfigures the mailbox", "statement": "Default ISM, default hook and required hook change only through the owner's calls, and only the addressed field changes; the domain and prefix never change; failed calls change nothing.", "quantifier": "every history of calls by any senders", "why_tests_cant": "unbounded histories", "anchors": ["contracts/core/mailbox/src/execute.rs: set_default_ism, set_default_hook, set_required_hook"]}
{"id": "C23", "title": "A message that names its own security module or hook does not depend on the defaults", "statement": "Process of a message whose recipient names a security module, and Dispatch with an explicit hook, do not fail because the mailbox default is unset.", "quantifier": "every mailbox state without defaults", "why_tests_cant": "configuration corner case combined with all messages", "anchors": ["contracts/core/mailbox/src/execute.rs: process, dispatch", "contracts/core/mailbox/src/state.rs: Config::get_default_ism, get_default_hook"]}
{"id": "C24", "title": "Multisig approval needs threshold distinct enrolled validators", "statement": "If the multisig ISM answers verified, then at least `threshold` distinct validators enrolled for the message's origin domain each have a signature in the metadata that recovers to them over the digest committing to that origin domain, merkle tree hook, root, index and message id.", "quantifier": "every validator set, metadata, message and behaviour of signature recovery", "why_tests_cant": "adversarial metadata: repeated, reordered, foreign and malformed signatures", "anchors": ["contracts/isms/multisig/src/query.rs: verify_message", "contracts/isms/multisig/src/lib.rs"]}
{"id": "C25", "title": "Enough good signatures are accepted", "statement": "If every signature in the metadata recovers and at least `threshold` different enrolled validators are among the signers, in any order and with repeats or strangers in between, the multisig ISM answers verified.", "quantifier": "every validator set, order and interleaving of signatures", "why_tests_cant": "permutations and repetitions are unbounded", "anchors": ["contracts/isms/multisig/src/query.rs: verify_message"]}
{"id": "C26", "title": "The signed digest commits to every component", "statement": "Equal multisig digests imply equal origin domain, merkle tree hook address, root, index and message id, or an explicit Keccak collision between the digests' preimages.", "quantifier": "every pair of well-formed inputs", "why_tests_cant": "injectivity over an infinite set", "anchors": ["contracts/isms/multisig/src/lib.rs: domain_hash, multisig_hash"]}
{"id": "C27", "title": "Validator sets stay well-formed", "statement": "Along any history every enrolled set has 20-byte validators and 0 < threshold <= number of validators, only the owner changes it, and a set where the threshold exceeds the number of distinct validators cannot be stored.", "quantifier": "every history of configuration calls", "why_tests_cant": "unbounded histories, duplicate entries", "anchors": ["contracts/isms/multisig/src/contract.rs: execute"]}
{"id": "C28", "title": "Aggregate ISM approves only with threshold distinct approvals", "statement": "If the aggregate ISM answers verified and its threshold is positive, at least `threshold` distinct configured modules answered verified for this message on their own slice of the metadata.", "quantifier": "every module list, threshold, metadata, message and module behaviour", "why_tests_cant": "adversarial metadata and modules", "anchors": ["contracts/isms/aggregate/src/lib.rs: verify, instantiate, execute"]}
{"id": "C29", "title": "Aggregate ISM tolerates modules that do not approve", "statement": "If at least `threshold` configured modules approve, the aggregate ISM answers verified whatever the other modules do.", "quantifier": "every module list and behaviour of the remaining modules (reject, fail)", "why_tests_cant": "all failure combinations", "anchors": ["contracts/isms/aggregate/src/lib.rs: verify"]}
{"id": "C30", "title": "Routing ISM defers to the module of the message's origin", "statement": "The routing ISM's verdict is exactly the verdict of the module currently routed for the message's origin domain, and an unrouted origin is refused; its verify-info answer is that module's verify-info.", "quantifier": "every routing table, message, metadata, module behaviour", "why_tests_cant": "all tables and histories", "anchors": ["contracts/isms/routing/src/contract.rs: query, execute"]}
{"id": "C31", "title": "Pausable modules stop and only stop while paused", "statement": "While paused the pausable ISM never answers verified and the pausable hook rejects every dispatch; while not paused both accept.", "quantifier": "every history of pauses, every message", "why_tests_cant": "unbounded histories", "anchors": ["contracts/isms/pausable/src/lib.rs", "contracts/hooks/pausable/src/lib.rs"]}
{"id": "C32", "title": "Merkle hook commits only to dispatched messages", "statement": "Over any history each leaf of the hook's tree is the id of a message the mailbox had dispatched most recently when it was inserted, the leaf order follows dispatch order, and the reported count, root and checkpoint are those of the padded tree over the leaves.", "quantifier": "every history of transactions over a chain with arbitrary other contracts", "why_tests_cant": "any caller, any interleaving of dispatches and direct calls", "anchors": ["contracts/hooks/merkle/src/lib.rs"]}
{"id": "C33", "title": "Merkle hook contains each dispatched message exactly once", "statement": "When the merkle hook is the required hook, every dispatched message is a leaf of the tree exactly once.", "quantifier": "every history", "why_tests_cant": "needs adversarial direct calls to the hook", "anchors": ["contracts/hooks/merkle/src/lib.rs: execute PostDispatch"]}
{"id": "C34", "title": "Aggregate hook charges the sum and pays each part", "statement": "The aggregate hook quotes, per denomination, the sum of its hooks' quotes, and on post-dispatch calls each hook once, in order, with exactly that hook's quote and the same message and metadata.", "quantifier": "every hook list, quotes and messages", "why_tests_cant": "lists and quotes are unbounded", "anchors": ["contracts/hooks/aggregate/src/lib.rs"]}
{"id": "C35", "title": "Routing hooks select the configured hook", "statement": "For every message the routing hook, custom routing hook and fallback routing hook call and quote exactly one hook: the one configured for (destination, recipient) if any, else for the destination, else the fallback, else they fail; quote and post-dispatch choose the same hook.", "quantifier": "every routing table and message", "why_tests_cant": "all tables, overlaps of custom and domain routes", "anchors": ["contracts/hooks/routing/src/lib.rs", "contracts/hooks/routing-custom/src/lib.rs", "contracts/hooks/routing-fallback/src/lib.rs"]}
{"id": "C36", "title": "Routing hooks pass on the payment they quoted", "statement": "When a routing hook quotes a fee for a message and is then called with that fee, the selected hook receives the fee.", "quantifier": "every routing table, message and fee", "why_tests_cant": "needs composition of quote and execution for all fees", "anchors": ["contracts/hooks/routing/src/lib.rs: post_dispatch", "contracts/hooks/routing-custom/src/lib.rs: post_dispatch", "contracts/hooks/routing-fallback/src/lib.rs: post_dispatch"]}
{"id": "C37", "title": "Fee hook accepts exactly payments covering the fee", "statement": "The fee hook accepts a post-dispatch iff the caller attached a single coin of the fee denomination of at least the fee; paying its quote is always accepted; only the owner changes the fee or withdraws, and withdrawal pays out the whole balance.", "quantifier": "every fee, funds list and history", "why_tests_cant": "zero fees, extra denominations", "anchors": ["contracts/hooks/fee/src/lib.rs"]}
{"id": "C38", "title": "Gas payment: charge, refund and quote agree", "statement": "For every gas amount and destination the paymaster's quote is floor(gas*price*rate/10^10); a payment is accepted iff it is a single coin of the gas token of at least that quote, exactly the excess is refunded to the chosen refund address and the paymaster's balance grows by exactly the quote; sending exactly the quote is always accepted.", "quantifier": "every gas amount, price, rate, payment, refund address", "why_tests_cant": "256-bit arithmetic and boundary amounts", "anchors": ["contracts/igps/core/src/execute.rs: pay_for_gas, post_dispatch", "contracts/igps/core/src/query.rs: quote_gas_price, quote_dispatch"]}
{"id": "C39", "title": "Gas quote is monotone and fair", "statement": "The quote never decreases when gas, price or rate grows, and splitting a gas amount in two changes the total quote by at most one unit and never in the paymaster's favour.", "quantifier": "all gas amounts, prices and rates", "why_tests_cant": "rounding behaviour over all integers", "anchors": ["contracts/igps/core/src/query.rs: quote_gas_price"]}
{"id": "C40", "title": "Only the beneficiary collects gas payments", "statement": "Claim succeeds only for the current beneficiary and pays out exactly the paymaster's balance of the gas token to the beneficiary; only the owner changes the beneficiary and gas settings.", "quantifier": "every history of calls", "why_tests_cant": "unbounded histories", "anchors": ["contracts/igps/core/src/execute.rs: claim, set_beneficiary, set_default_gas, set_gas_for_domain, unset_gas_for_domain"]}
{"id": "C41", "title": "Per-domain gas defaults are last-write-wins", "statement": "The gas limit used for a destination when the caller gives none is the last value set for that destination, or the default gas after it was unset or never set.", "quantifier": "every history of updates, overlapping batches", "why_tests_cant": "unbounded histories", "anchors": ["contracts/igps/core/src/execute.rs", "contracts/igps/core/src/lib.rs: get_default_gas", "contracts/igps/core/src/query.rs: get_gas_for_domain"]}
{"id": "C42", "title": "Gas oracle stores only usable data", "statement": "Along any history only the owner updates gas data, lookups return the last update, and no stored exchange rate is zero.", "quantifier": "every history of updates", "why_tests_cant": "unbounded histories; single and batch update paths", "anchors": ["contracts/igps/oracle/src/contract.rs", "contracts/igps/oracle/src/state.rs"]}
{"id": "C43", "title": "Announcements are authentic, permanent and never repeated", "statement": "Along any history a storage location is listed for a validator only if someone submitted a signature that recovers to that validator over the digest of (local domain, mailbox, location); listed locations are never removed or reordered, and the same (validator, location) is accepted at most once.", "quantifier": "every history of announcements", "why_tests_cant": "unbounded histories, adversarial signatures", "anchors": ["contracts/core/va/src/contract.rs: announce, get_announce_storage_locations"]}
{"id": "C44", "title": "Announcement digest commits to domain, mailbox and location", "statement": "Equal announcement digests imply equal (domain, mailbox, location), and equal replay keys for 20-byte validators imply equal (validator, location), unless an explicit Keccak collision is exhibited.", "quantifier": "every pair of inputs", "why_tests_cant": "injectivity over an infinite set", "anchors": ["contracts/core/va/src/contract.rs: replay_hash, domain_hash, announcement_hash"]}
{"id": "C45", "title": "Warp tokens are released only for messages of the enrolled router", "statement": "A warp route mints or releases tokens only when called by its mailbox with a message whose sender is the router enrolled for the origin domain, and then exactly the amount in the payload to exactly the recipient in the payload.", "quantifier": "every state, caller and message; both token kinds and modes", "why_tests_cant": "adversarial callers and payloads", "anchors": ["contracts/warp/native/src/contract.rs: mailbox_handle", "contracts/warp/cw20/src/contract.rs: mailbox_handle"]}
{"id": "C46", "title": "Warp remote transfer takes exactly the amount", "statement": "A successful TransferRemote burns (bridged) or locks (collateral) exactly the requested amount of the route's token from what the sender provided, forwards all other funds to the mailbox for fees, and dispatches to the enrolled router of the destination; without enough tokens, or without a route it fails.", "quantifier": "every state, funds list and request; both token kinds and modes", "why_tests_cant": "all multi-denomination funds", "anchors": ["contracts/warp/native/src/contract.rs: transfer_remote", "contracts/warp/cw20/src/contract.rs: transfer_remote"]}
{"id": "C47", "title": "Bridged supply never exceeds what was sent", "statement": "For two warp routes connected through mailboxes that deliver only dispatched messages, the tokens locked or burned on one side minus those released or minted on the other always equal the amounts in flight: no history creates tokens.", "quantifier": "every interleaving of transfers and deliveries in both directions", "why_tests_cant": "unbounded interleavings", "anchors": ["contracts/warp/native/src/contract.rs", "contracts/warp/cw20/src/contract.rs", "contracts/core/mailbox/src/execute.rs"]}
{"id": "C48", "title": "Migration only moves forward", "statement": "Migration succeeds iff the stored contract name matches and the stored version is strictly older (semantic-version order) than the code's, and then only the version changes; so along any history the version strictly increases.", "quantifier": "all names and version pairs, every history", "why_tests_cant": "ordering over all versions (multi-digit components, pre-releases)", "anchors": ["packages/utils/src/lib.rs: migrate"]}
{"id": "C49", "title": "Connections are owner-controlled", "statement": "The mailbox, ISM and hook connections of a contract are what its owner last set, each independently of the others, and nobody else can change them.", "quantifier": "every history of calls", "why_tests_cant": "unbounded histories", "anchors": ["packages/connection/src/lib.rs"]}
{"id": "C50", "title": "Transactions conserve native tokens", "statement": "Executing any transaction against any set of contracts changes no denomination's total supply except through token-factory mint and burn messages, and a failing transaction changes nothing.", "quantifier": "every transaction, contract set and re-entrant call tree", "why_tests_cant": "unbounded call trees", "anchors": ["contracts/core/mailbox/src/execute.rs: dispatch", "contracts/igps/core/src/execute.rs", "contracts/hooks/aggregate/src/lib.rs", "contracts/warp/native/src/contract.rs"]}
{"id": "C51", "title": "A fee-less dispatch through the paymaster or fee hook succeeds", "statement": "When a hook quotes no fee for a message, calling it without funds is accepted.", "quantifier": "every configuration whose quote is empty or zero", "why_tests_cant": "corner of the configuration space (zero price, zero gas, zero fee)", "anchors": ["contracts/igps/core/src/execute.rs: pay_for_gas", "contracts/igps/core/src/query.rs: quote_dispatch", "contracts/hooks/fee/src/lib.rs"]}
{"id": "C52", "title": "The owner's valid configuration calls are accepted, and nothing else configures", "statement": "For every contract and every configuration message it has, the call is accepted exactly when the sender is the current owner and the values are valid (addresses valid, domains below 2^32, thresholds within range, 20-byte validators, 32-byte recipients, non-zero batched exchange rates); apart from claiming an offered ownership, no other message changes any stored setting.", "quantifier": "every contract state, sender, message and API verdict on addresses", "why_tests_cant": "covers every message against every contract, all values", "anchors": ["contracts/core/mailbox/src/execute.rs", "contracts/isms/multisig/src/contract.rs", "contracts/isms/aggregate/src/lib.rs", "contracts/isms/routing/src/contract.rs", "contracts/hooks/routing-custom/src/lib.rs", "contracts/igps/oracle/src/contract.rs", "contracts/igps/core/src/execute.rs", "packages/ownable/src/lib.rs", "packages/router/src/lib.rs"]}
{"id": "C53", "title": "Token-factory requests and answers are encoded and read exactly", "statement": "For every creation, mint, burn or metadata request a native warp route makes, the bytes it hands to the chain are valid protobuf that reads, field by field, as exactly that request and no other, under the right type URL; the reply is accepted only if it is valid protobuf, and the route then adopts exactly the denomination it names; the chain's own answer is always accepted.", "quantifier": "all senders, amounts, denominations, metadata and reply bytes", "why_tests_cant": "all field values (empty strings, multi-byte varints, 128-bit amounts) and arbitrary reply bytes; no test decodes the encoded bytes", "anchors": ["contracts/warp/native/src/proto.rs", "contracts/warp/native/src/conv.rs", "contracts/warp/native/src/contract.rs: reply"]}
{"id": "C54", "title": "Dispatch events tell every dispatched message", "statement": "Over the life of a mailbox, the dispatch events list, in order and without omission or invention, exactly the messages dispatched: their bytes, their ids (keccak256 of the bytes), senders, recipients and destinations.", "quantifier": "every instantiation and history of calls, accepted or not", "why_tests_cant": "unbounded histories; relayers rely on nothing else to learn of messages", "anchors": ["contracts/core/mailbox/src/event.rs: emit_dispatch, emit_dispatch_id", "contracts/core/mailbox/src/execute.rs: dispatch"]}
{"id": "C55", "title": "Delivery events tell every delivered message, once", "statement": "Over the life of a mailbox, the process events list exactly the delivered messages with their ids, origins, senders and recipients; no id is listed twice, and a message id is reported as delivered if and only if it is listed.", "quantifier": "every instantiation and history of calls", "why_tests_cant": "unbounded histories", "anchors": ["contracts/core/mailbox/src/event.rs: emit_process, emit_process_id", "contracts/core/mailbox/src/execute.rs: process", "contracts/core/mailbox/src/query.rs"]}
{"id": "C56", "title": "Insertion events rebuild the merkle tree", "statement": "The insertion events of a merkle hook carry the indices 0, 1, 2, ... in order and the ids inserted; the tree over the told ids has the count and root the hook reports.", "quantifier": "every instantiation and history of calls", "why_tests_cant": "unbounded histories; validators rebuild the tree from these events", "anchors": ["contracts/hooks/merkle/src/lib.rs: post_dispatch"]}
{"id": "C57", "title": "Gas payment events account for every payment", "statement": "Each accepted gas payment emits one event with the payer, message id, destination, gas, the exact required amount, the payment attached and the refund sent; over any history the payments told are the sums attached and equal what was required plus what was refunded; a claim tells the beneficiary and the amount sent.", "quantifier": "every configuration, oracle answer and history", "why_tests_cant": "unbounded histories and 256-bit amounts", "anchors": ["contracts/igps/core/src/event.rs", "contracts/igps/core/src/execute.rs: pay_for_gas, post_dispatch, claim"]}
{"id": "C58", "title": "Settings can be followed by replaying events", "statement": "Starting from the reported settings, replaying the emitted events gives at every time the owner and pending owner, the pause flag, the mailbox's default ISM and hooks, connections, origin routes of the routing ISM, hook lists, fee, fallback hook, default gas, beneficiary and all routes; the JSON in route events can be read in one way only.", "quantifier": "every contract state and history of calls", "why_tests_cant": "unbounded histories; JSON text with arbitrary addresses (quotes, escapes)", "anchors": ["packages/ownable/src/lib.rs", "packages/pausable/src/lib.rs", "packages/router/src/lib.rs", "packages/connection/src/lib.rs", "contracts/core/mailbox/src/event.rs", "contracts/isms/routing/src/contract.rs", "contracts/hooks/aggregate/src/lib.rs", "contracts/hooks/fee/src/lib.rs", "contracts/hooks/routing-fallback/src/lib.rs", "contracts/igps/core/src/event.rs"]}
{"id": "C59", "title": "Every change of a setting is told by its event", "statement": "From equal states, histories that emit the same events lead to the same settings and payments.", "quantifier": "every pair of histories", "why_tests_cant": "compares all pairs of histories", "anchors": ["contracts/isms/multisig/src/contract.rs: set_validators", "contracts/isms/aggregate/src/lib.rs: SetIsms", "contracts/igps/core/src/event.rs: emit_set_gas_for_domain", "contracts/igps/oracle/src/contract.rs", "contracts/hooks/routing-custom/src/lib.rs: register_custom_hooks", "contracts/hooks/fee/src/lib.rs: claim"]}
{"id": "C60", "title": "Warp route events tell every transfer and delivery", "statement": "The transfer events of a route list exactly its accepted transfers with caller, destination, recipient and amount; a delivery event names the recipient, amount and token actually released.", "quantifier": "every route state and history of calls", "why_tests_cant": "unbounded histories", "anchors": ["contracts/warp/native/src/contract.rs: transfer_remote, mint_or_release", "contracts/warp/cw20/src/contract.rs: transfer_remote, mint_or_release"]}
{"id": "C61", "title": "Announcement events tell every announcement", "statement": "The events of the announcement contract list exactly the accepted announcements, validator and storage location, in order.", "quantifier": "every history of calls", "why_tests_cant": "unbounded histories", "anchors": ["contracts/core/va/src/contract.rs: announce"]}
{"id": "C62", "title": "New contracts start exactly as configured", "statement": "Each contract can be instantiated exactly when its addresses are valid, its numbers fit their types, an address prefix is lower case, and (validator announce) the mailbox is a bech32 address answering with its domain; it then reports exactly the requested owner and settings, no pending owner, no routes, no deliveries, nonce zero, an empty tree or ledger, and sends nothing except, for a bridged warp route, the one request that creates its token.", "quantifier": "every contract, instantiation message, chain and sender", "why_tests_cant": "wrong initial values only show later, and each of the 17 contracts has its own instantiate function with many combinations of arguments", "anchors": ["contracts/core/mailbox/src/contract.rs: instantiate", "contracts/core/va/src/contract.rs: instantiate", "contracts/isms", "contracts/hooks", "contracts/igps/core/src/contract.rs: instantiate", "contracts/warp/native/src/contract.rs: instantiate", "contracts/warp/cw20/src/contract.rs: instantiate"]}
{"id": "C63", "title": "A warp route's token is settled when it is deployed", "statement": "On a chain, between transactions, every warp route has a token: the one it was told to lock, or, for a bridged route, the denomination or cw20 contract created for it in the very transaction that deployed it, of which the route alone is administrator or minter. It never changes afterwards, and no two routes issue the same token.", "quantifier": "every chain, mix of contracts, history of transactions and route", "why_tests_cant": "the token is stored by a reply to a submessage; any other reply, reentrant call or failed submessage at any time could overwrite or omit it", "anchors": ["contracts/warp/native/src/contract.rs: instantiate, reply", "contracts/warp/cw20/src/contract.rs: instantiate, reply"]}
{"id": "C64", "title": "Whatever reaches a recipient was vouched for by its security module", "statement": "For every message a mailbox on a chain accepted, the module named by the recipient (or else the mailbox's default) vouched for it in the state of that moment: through any nesting of routing and aggregate modules, at every multisig reached, threshold-many different enrolled validators of the origin signed a checkpoint naming this very message; pausable modules reached were not paused. In particular a warp route never mints or releases tokens for anything else.", "quantifier": "every chain, mix of contracts and nesting of modules, history of transactions, message and metadata", "why_tests_cant": "the composition of mailbox, recipient, nested modules and signatures at one moment of an arbitrary history", "anchors": ["contracts/core/mailbox/src/execute.rs: process", "contracts/isms/multisig/src/query.rs: verify_message", "contracts/isms/aggregate/src/lib.rs: verify", "contracts/isms/routing/src/contract.rs: query", "contracts/isms/pausable/src/lib.rs: query", "contracts/warp/native/src/contract.rs: mint_or_release", "contracts/warp/cw20/src/contract.rs: mint_or_release"]}
{"id": "C65", "title": "A vouched-for transfer can be delivered by anyone and is paid out", "statement": "If the module consulted for a transfer message would answer yes (enough recoverable signatures of different enrolled validators, every module of an aggregate answering, pausable modules not paused) and the route can pay, then any account delivering it succeeds, and in that one transaction the recipient gets exactly the amount named, out of the route's holdings (collateral) or newly issued (bridged), nothing else moving. Between two linked routes, one locking and one issuing with no initial supply, the locking route always holds enough for every undelivered transfer on its way back.", "quantifier": "every chain, state reached, nesting of modules, message, metadata, relayer, and (two linked chains) pair of histories", "why_tests_cant": "success of a chain of calls through mailbox, nested modules, route and token in every reachable state; solvency is an invariant over two histories", "anchors": ["contracts/core/mailbox/src/execute.rs: process", "contracts/isms", "contracts/warp/native/src/contract.rs: mint_or_release", "contracts/warp/cw20/src/contract.rs: mint_or_release"]}
{"id": "C66", "title": "A dispatch that pays the mailbox's quote succeeds, and the fees go where the hooks say", "statement": "If the required hook and the chosen hook would take a message (merkle hooks of this mailbox with room, pausable hooks not paused, protocol fees and gas payments that are not zero, routing hooks leading to hooks without a fee, programs of others that quote fees and take them without sending anything on, aggregates of such hooks, nested at will), then the mailbox quotes exactly the sum of what they ask for, and any caller who sends exactly that has the message dispatched in one transaction: the nonce grows by one, the fees end at the hooks that asked for them to the last coin, each merkle hook records the message as often as it is reached, and no other balance or contract changes.", "quantifier": "every chain, state reached, nesting of hooks, dispatch request and caller", "why_tests_cant": "success of a chain of calls through the mailbox and nested hooks in every reachable state; the sums over arbitrary trees of hooks and denominations", "anchors": ["contracts/core/mailbox/src/execute.rs: dispatch", "contracts/core/mailbox/src/query.rs: quote_dispatch", "contracts/hooks", "contracts/igps/core/src/execute.rs: post_dispatch"]}
{"id": "C67", "title": "Contracts speak only their interface, and their reports about others are the ones they act on", "statement": "A contract refuses every execute and query message outside its own enum. A security module declares its own type; the mailbox a hook names never changes. The module the mailbox reports for a recipient is the recipient's own or else the default, and is exactly the one that has to approve a delivery to it; the price and exchange rate the gas paymaster reports for a destination are exactly those of the oracle it would charge by.", "quantifier": "every contract, state, history, message and chain answering the queries", "why_tests_cant": "all 18 contracts against all messages; agreement of a query with the later behaviour of execute under any environment", "anchors": ["contracts/core/mailbox/src/query.rs: get_recipient_ism", "contracts/core/mailbox/src/execute.rs: process", "contracts/igps/core/src/query.rs: get_exchange_rate_and_gas_price", "contracts/isms", "contracts/hooks/merkle/src/lib.rs", "packages/interface/src"]}
{"id": "C68", "title": "A remote transfer that pays its quote succeeds", "statement": "If a warp route knows a counterpart for the destination and the mailbox would take the transfer message for certain fees (as in C66), then any account that sends those fees, plus the amount itself for a native route, or holds and has allowed the route the amount for a cw20 route, succeeds in one transaction: exactly one message is dispatched, naming the counterpart, the recipient and the amount; the amount ends with the route (collateral) or out of circulation (bridged), to the last unit and with the allowance reduced by it; the fees end at the hooks; no other balance, token holding, allowance or contract changes.", "quantifier": "every chain, state reached, nesting of hooks, route of either kind and mode, destination, recipient, amount, hook, metadata, caller and list of coins adding up", "why_tests_cant": "success of a chain of calls through route, token, mailbox and nested hooks in every reachable state, including fees in the transferred denomination, coins split over several entries, and zero remainders", "anchors": ["contracts/warp/native/src/contract.rs: transfer_remote", "contracts/warp/cw20/src/contract.rs: transfer_remote", "contracts/core/mailbox/src/execute.rs: dispatch", "contracts/hooks"]}
{"id": "C69", "title": "What is sent on one chain can be received on the other", "statement": "Given two linked warp routes, a transfer that pays amount and fees (as in C68) to a 32-byte recipient is accepted; and from then on, whatever other transactions happen on either chain, whenever the module consulted on the other chain approves the message and the other route still accepts messages from this one, either the message was already delivered there, or any account delivering it succeeds and the recipient is paid exactly the amount that was taken here. This holds when the other route issues its token, and when it locks a token that only this route issued.", "quantifier": "every pair of chains and reachable states, route kinds, amount, recipient, fees, hooks, later histories of both chains, relayer", "why_tests_cant": "two chains, arbitrary histories before and after the transfer; the sending code and the receiving code are different contracts that agree only through the encoded bytes", "anchors": ["contracts/warp/native/src/contract.rs: transfer_remote, mint_or_release", "contracts/warp/cw20/src/contract.rs: transfer_remote, mint_or_release", "contracts/core/mailbox/src/execute.rs: dispatch, process", "packages/interface/src/types/message.rs", "packages/interface/src/warp/mod.rs"]}
{"id": "C70", "title": "Events from the first one on tell a contract's settings", "statement": "Whoever reads the event of a contract's creation and all its later events knows its owner (all owned contracts), the mailbox's modules and hooks, the announcement contract's mailbox and domain, the merkle hook's mailbox, the hooks and fees of hooks, the beneficiary and default gas of the paymaster, the mode and token of warp routes, all routes, and the modules and threshold an aggregate module starts with; on a chain, the denomination told by a route's creation is the one it uses. Equal creation events mean equal settings.", "quantifier": "every accepted instantiation of every contract, every later history of calls", "why_tests_cant": "the claim relates two independent code paths (settings stored, attributes written) over all histories; tests compare single events with expected texts", "anchors": ["contracts/core/mailbox/src/event.rs: emit_instantiated", "contracts/core/va/src/contract.rs: instantiate", "contracts/isms: instantiate", "contracts/hooks: instantiate", "contracts/igps: instantiate", "contracts/warp: instantiate"]}
{"id": "C71", "title": "A contract stays the program it was created from", "statement": "The names under which the programs record themselves are pairwise different. Whatever programs a contract is migrated to, its record keeps the name of the program it was created from; no program of this commit can be installed over a contract created from this commit; and a contract can be migrated to a program of this commit exactly if it is an older version of the same program.", "quantifier": "every program, every sequence of attempted migrations, every stored record", "why_tests_cant": "quantifies over all pairs of programs and all migration sequences; the name check is only as good as the distinctness of seventeen separately maintained names", "anchors": ["packages/utils/src/lib.rs: migrate", "contracts: CONTRACT_NAME, CONTRACT_VERSION, migrate", "Cargo.toml"]}
{"id": "C72", "title": "Contracts read exactly the JSON their interface describes", "statement": "Every message of a contract's interface, written as the interface describes it, is read by the contract as that message; two different messages have different texts. Whatever text a contract accepts, it takes for a message of its own interface with all numbers in range, and every member of the accepted text belongs to the message: nothing is skipped, repeated or filled in except members meaning none. The same holds of queries, and every answer a contract gives is written as its type says and read back as it was given.", "quantifier": "every contract, message, query, answer and text; for answers, every history of calls", "why_tests_cant": "all texts that a parser may meet, against all messages of 18 interfaces; field names, optional members, hexadecimal and decimal strings are produced by derive macros that no test inspects", "anchors": ["packages/interface/src", "packages/router/src", "packages/connection/src", "contracts/core/va/src", "contracts/igps"]}
{"id": "C73", "title": "Contracts understand each other's messages", "statement": "Every message a contract on a chain sends another, and every query it makes, has the text of the receiver's interface; a contract receiving it either reads exactly the message meant or, if its interface has no such message, refuses it. No text sent for one message is read as another.", "quantifier": "every chain, history of transactions, sending and receiving contract", "why_tests_cant": "sender and receiver describe the same message in separately maintained types; a test only exercises the pairs it deploys", "anchors": ["contracts/core/mailbox/src/execute.rs: dispatch, process", "contracts/hooks", "contracts/isms", "contracts/warp", "packages/interface/src"]}
{"id": "C74", "title": "Exchanging texts changes nothing", "statement": "On a chain whose contracts write, send and parse JSON for every call, query and answer between them, each call, creation and query gives the very result it gives when the values are handed over directly.", "quantifier": "every chain, reachable state, contract, call and depth of nested queries", "why_tests_cant": "equality of two executions over all nested calls and answers", "anchors": ["packages/interface/src", "contracts"]}
{"id": "C75", "title": "No setting changes unannounced", "statement": "Some events leave out the values they set. Still, whoever knows a setting (the validators and threshold of a domain, the gas of a destination, the oracle's data for it, the custom hook of a recipient, the modules and threshold of an aggregate module) and then sees no event naming it as written knows it still, and an event naming it as removed tells that it is gone; the number of validators and the threshold of a domain, and the modules of an aggregate module, are told exactly.", "quantifier": "every multisig, aggregate, paymaster, oracle and custom routing contract, every domain below 2^32 and recipient, every history of calls", "why_tests_cant": "a silent change may hide in any of the entry points, in batches, or in the textual form of a list of domains; tests look at the events of the calls they make, not at the calls that make none", "anchors": ["contracts/isms/multisig/src/contract.rs:42-103", "contracts/isms/aggregate/src/lib.rs: execute", "contracts/igps/core/src/event.rs", "contracts/igps/oracle/src/contract.rs:35-85", "contracts/hooks/routing-custom/src/lib.rs"]}
{"id": "C76", "title": "Events of hooks tell every post, and name the caller", "statement": "The aggregate, routing, custom routing, fallback and fee hooks emit exactly one post event per accepted post, in order; it names the message's id, for routing hooks also the destination and the hook selected, for the fee hook the coin attached. Wherever an event of any contract names who acted, it names the caller (the mailbox's events name the sender of the message instead).", "quantifier": "every hook, history of calls, message; every contract, accepted call and event of it", "why_tests_cant": "counts and orders of events over whole histories, and one convention over all events of 17 contracts", "anchors": ["contracts/hooks/aggregate/src/lib.rs", "contracts/hooks/routing/src/lib.rs", "contracts/hooks/routing-custom/src/lib.rs", "contracts/hooks/routing-fallback/src/lib.rs", "contracts/hooks/fee/src/lib.rs", "contracts: event.rs"]}
{"id": "C77", "title": "A relayer may rely on what a module says it verifies", "statement": "The multisig module answers the verify-info query exactly with the validators and threshold enrolled for the message's origin, and whoever then presents recoverable signatures by that many different validators it named is approved; the aggregate module answers with the accounts of its modules and its threshold. The pausable module aborts on the query, and the routing module never answers it (C30).", "quantifier": "every state, message, metadata, signature list and cryptographic interface", "why_tests_cant": "links two queries over all signature sets; existing tests compare a single answer", "anchors": ["contracts/isms/multisig/src/query.rs: verify_info, verify_message", "contracts/isms/aggregate/src/lib.rs: query", "contracts/isms/pausable/src/lib.rs: query"]}
{"id": "C78", "title": "A contract aborts only for listed reasons", "statement": "A contract that was created and then called in any way aborts (Rust panic) on a message or query only if: the message or metadata bytes are shorter than their fixed part; a signature lacks its recovery byte or has one below 27; the mailbox's defaults were never set or its nonce is used up; an address stands for more than 32 bytes; the product of gas, price and rate leaves 256 bits; the refund field begins with sixteen zeros; no router is enrolled for the domain; a native transfer attaches none of the token; the table of an aggregate module's metadata does not describe it or its threshold is zero; or the pausable module is asked for verify-info. Each of these makes the message unacceptable. Creation and replies never abort.", "quantifier": "every contract, history of calls, message, query, sender, funds, state of the chain and cryptographic interface", "why_tests_cant": "absence of any other index, unwrap or overflow failure over all inputs and reachable states", "anchors": ["contracts/core/mailbox/src/execute.rs", "contracts/core/va/src/contract.rs", "contracts/isms", "contracts/hooks", "contracts/igps/core/src", "contracts/warp", "packages/interface/src/types"]}
{"id": "C79", "title": "What is stored can be read back, and a call writes only its own entries", "statement": "In the database a contract of this repository keeps (names, length-prefixed namespaces, big-endian numeric keys, JSON values), no two of its items or maps share a key and every item and entry is read back as it was stored, so equal databases mean equal contents. The entries are, key by key and byte by byte, those the state declarations call for. An accepted call or reply leaves every key other than those listed for its message (for example nonce and latest_dispatched_id for a dispatch, the message's own entry of deliveries for a process) exactly as it was.", "quantifier": "every contract, history of calls with 64-bit block heights, message, sender, key and contract version record", "why_tests_cant": "key collisions between namespaces and ill-encoded values appear only for particular names, lengths and byte values; tests exercise a few keys", "anchors": ["contracts/core/mailbox/src/state.rs", "contracts/core/va/src/state.rs", "contracts/isms", "contracts/hooks", "contracts/igps", "contracts/warp", "packages/router/src/lib.rs", "packages/ownable/src/lib.rs", "packages/connection/src/lib.rs"]}
{"id": "C80", "title": "Queries over maps read exactly the entries meant", "statement": "The answers about one route, all domains, a page of routes, a page of gas settings, a page of the custom hooks of a destination and all validators are what a scan of the raw database between the bounds the code computes gives: neither entries of other maps nor of other domains appear, none is missing, in both orders, including where a bound ends in the byte 255.", "quantifier": "every contract with such a map, history of calls, start key, limit and order", "why_tests_cant": "the bounds of a scan are byte strings; off-by-one mistakes show only at particular domains and keys", "anchors": ["packages/interface/src/lib.rs: range_option", "packages/router/src/lib.rs: get_routes", "contracts/igps/core/src/query.rs", "contracts/hooks/routing-custom/src/lib.rs: get_custom_hooks", "contracts/core/va/src/contract.rs"]}
{"id": "C81", "title": "A text is read exactly when JSON allows it, and as what it says", "statement": "The reader of messages, queries and answers accepts a text as a value if and only if the grammar of RFC 8259 (restricted to non-negative integers) derives that text from the value, with nothing but blanks before and after it. A message or query is understood as itself however it is spelled: blanks between tokens, escapes in strings, members in any order, members that are null left away.", "quantifier": "all texts, all JSON values, all contracts, all messages and queries of their interfaces, all spellings", "why_tests_cant": "the texts are infinitely many; tests send what one serializer writes", "anchors": ["packages/interface/src/core/mailbox.rs:18-25", "packages/interface/src/core/mailbox.rs:81-104", "packages/interface/src/macros.rs:14-17", "contracts/core/mailbox/src/contract.rs"]}
{"id": "C82", "title": "Reading and writing single entries comes to the same as the records", "statement": "Every instantiate, execute, reply, query and migrate of the contracts of this repository, written out as the reads, writes, removals and scans of single keys that the sources make (each value passing through its stored JSON text), does exactly what the model on whole records does: from the database that stands for a record it reaches the database that stands for the record reached, with the same messages, answers and errors. So, from an empty database and over any history of calls, replies and migrations, failing ones included, every theorem on records holds of what is stored.", "quantifier": "every contract but the external cw20 token, instantiation message, caller, funds, message, answers of the rest of the chain (which may depend on the database as it stands), version record, and history with 64-bit block heights", "why_tests_cant": "a value saved under the wrong key, read from a stale copy, or not saved at all shows only on the next read of that key; tests read back few of the entries a call touches", "anchors": ["contracts/core/mailbox/src/execute.rs", "contracts/core/va/src/contract.rs", "contracts/isms", "contracts/hooks", "contracts/igps", "contracts/warp", "packages/router/src/lib.rs", "packages/ownable/src/lib.rs", "packages/pausable/src/lib.rs", "packages/connection/src/lib.rs", "packages/utils/src/lib.rs"]}
{"id": "C83", "title": "The chain on raw databases and the chain on records are one", "statement": "Let each contract of this repository keep only its database of texts under keys, and run it by the entry points that read and write single keys; let queries between contracts read these databases as they stand, submessages run in order and failing ones be undone. Then every transaction ends as on the chain that keeps a record for each contract, with the same error, bank balances, token-factory denominations and deployed contracts, and every database is, key by key, the one that stands for the record. So everything proved of messages travelling between contracts holds of the stored bytes.", "quantifier": "every chain whose other programs learn of it by queries only, every initial bank, and every history of transactions with 64-bit block heights: deployments, calls, transfers, nested calls, replies and failures", "why_tests_cant": "a nested call that reads another contract's database in the middle of a transaction is an interleaving that unit tests with mocked queriers never build", "anchors": ["contracts/core/mailbox/src/execute.rs", "contracts/core/mailbox/src/contract.rs", "contracts/warp/native/src/contract.rs", "contracts/warp/cw20/src/contract.rs", "contracts/hooks", "contracts/isms", "contracts/igps", "packages/interface/src/ism/mod.rs", "packages/interface/src/hook/mod.rs"]}
{"id": "C84", "title": "Instantiation messages are read for what they say", "statement": "The JSON text of an instantiation message, written member by member as the interface crate declares it, is read by the contract it is for as that message; whatever text a contract accepts is one of its own messages with every number within its width, none of its members passed over, and the same however it is spelled; two messages with the same text are the same. The token a bridged cw20 warp route orders is of the code the deployer named, is administered and minted by the route alone and without a cap, whatever minter the deployer wrote, and is otherwise as the deployer described it.", "quantifier": "every contract of the repository, every instantiation message, text and spelling; every token description", "why_tests_cant": "deployment tests send a handful of well-formed messages; which wrong ones are refused, and that no member is silently ignored, is a statement about all texts", "anchors": ["packages/interface/src/core/mailbox.rs:12-16", "packages/interface/src/core/va.rs:5-8", "packages/interface/src/ism/routing.rs:11-20", "packages/interface/src/igp/core.rs:14-20", "packages/interface/src/warp/native.rs:14-53", "packages/interface/src/warp/native.rs:89-110", "packages/interface/src/warp/cw20.rs:27-45", "contracts/warp/cw20/src/contract.rs:48-66"]}
{"id": "C85", "title": "The chain on texts and databases and the chain on values and records are one", "statement": "Let each contract of this repository keep only its database, and let everything it is sent, sends and asks be a JSON text: transactions carry the text of a message or of an instantiation message, a contract's message to another contract is written by the sender and read by the receiver with the type the receiver declares, a question and its answer likewise. Then every history ends in the databases that stand for the records reached by the messages read in those texts; a text written as the interface says does what its message does, and a text that is none of the contract's messages does nothing. In particular no mailbox database ever accepts a second text of a message with the id of one it has processed, however it is written and whatever happens in between.", "quantifier": "every chain whose other programs learn of it by queries only, every initial bank, every history of texts with 64-bit block heights, every nesting of calls, queries and replies", "why_tests_cant": "a message that one contract writes and another reads differently shows only when the two real contracts meet inside one transaction; the repository's tests mock one side", "anchors": ["contracts/core/mailbox/src/execute.rs", "contracts/core/mailbox/src/contract.rs", "packages/interface/src/core/mailbox.rs:106-134", "packages/interface/src/ism/mod.rs:93-117", "packages/interface/src/hook/mod.rs:76-107", "contracts/warp/native/src/contract.rs", "contracts/warp/cw20/src/contract.rs", "contracts/hooks", "contracts/isms", "contracts/igps"]}
{"id": "C86", "title": "A network of warp routes is backed, however many ends it has", "statement": "Take any number of chains, each with a mailbox and a warp route (native or cw20, locking or issuing), enrolled with nobody but each other, whose mailboxes accept only what was dispatched at the other ends. In every state all the locking routes together hold, beyond what they were given, exactly what all the issuing routes have issued plus what travels between any two of the ends. If only one route locks and the others started from nothing, that route can pay every transfer on its way to it, from whichever end; a transfer accepted at one end can be delivered at the end it names, whatever happens in between. With two locking routes this fails: a vouched-for transfer can be undeliverable for want of coins at its end.", "quantifier": "all numbers of chains, all histories of all of them, all routes, amounts and recipients of 32 bytes", "why_tests_cant": "the tests know one chain at a time; the sum over all ends is not visible from any of them", "anchors": ["contracts/warp/native/src/contract.rs:146-268", "contracts/warp/cw20/src/contract.rs:142-255", "contracts/core/mailbox/src/execute.rs:95-303", "packages/router/src/lib.rs:35-108"]}
{"id": "C87", "title": "A JSON text is UTF-8 exactly when every string read from it is", "statement": "If a text is read as a value, the text is well-formed UTF-8 if and only if every string and every member name of the value is, whether its characters are written as bytes, as escapes, or as surrogate pairs of escapes. Hence a reader that checks each string accepts exactly the well-formed texts the unchecked reader accepts, with the same values.", "quantifier": "all byte sequences and all JSON values", "why_tests_cant": "Tests use ASCII texts; the claim covers every byte sequence, every escape and every surrogate pair", "anchors": ["packages/interface/src/macros.rs:14-17", "contracts/core/mailbox/src/contract.rs:90-130"]}
{"id": "C88", "title": "The mock contracts do what their stand-in role needs and no more", "statement": "The mock security module answers every verification with yes, names no validators, and takes only the empty message. The mock hook quotes its price when it is set and fits 128 bits, quotes nothing when it is not set, and takes a message exactly when its price is set, whatever was paid: so the hook that asks for nothing takes nothing. The mock receiver takes exactly the messages whose sender prints in its prefix and whose body is UTF-8, and reports sender, origin and body. None of them sends anything; the price of a hook is all that ever changes, by its own message and to a 256-bit number. Their messages are read from texts for what they say. A mock is migrated exactly to a later version of the same mock; every other migration aborts.", "quantifier": "all messages, metadata, senders, prices, prefixes, bodies and texts", "why_tests_cant": "the mocks carry no tests of their own beyond one message's schema", "anchors": ["contracts/mocks/mock-ism/src/contract.rs", "contracts/mocks/mock-hook/src/contract.rs:16-115", "contracts/mocks/mock-msg-receiver/src/contract.rs:14-78"]}
{"id": "C89", "title": "A test network of mailboxes and mocks delivers what is sent", "statement": "On a chain whose mailbox trusts the mock module, processing a message for a mock receiver succeeds exactly when the message has the right version and domain, was not delivered before, and the receiver can print its sender and read its body as text; the relayer and the metadata do not matter, and nothing changes but the mailbox's record. Dispatching through mock hooks costs their prices, each going to its hook. What one chain dispatches the other delivers. Anybody can set the price of a mock hook, and by taking it away stops every dispatch of a mailbox that requires the hook.", "quantifier": "all chains hosting the mocks, all states, messages, metadata, relayers, prices and pairs of chains", "why_tests_cant": "the repository's tests of the mailbox replace the rest of the chain by canned answers; no test runs two mailboxes and the mocks together", "anchors": ["contracts/mocks", "contracts/core/mailbox/src/execute.rs:95-303"]}
{"id": "C90", "title": "Migrations change version records and nothing else", "statement": "Whatever migrations a history contains, the chain ends with the same contracts, database entries, balances, token admins and height as the same history without them, except for the version records. A contract's code is replaced exactly by a strictly later version (semantic versioning precedence) of the same program; so a contract runs one program for ever, records that program's name, and the versions it records only grow. No migration panics, and none makes a mailbox accept a message a second time.", "quantifier": "all chains, all histories of texts, transactions and migrations, all versions and version strings", "why_tests_cant": "the tests call migrate on a mock storage with two hand-picked versions; none runs migrations between transactions", "anchors": ["packages/utils/src/lib.rs:20-45", "contracts/core/mailbox/src/contract.rs:98-102", "contracts/warp/native/src/contract.rs:304-308"]}
{"id": "C91", "title": "Every Cosmos key has an account of 20 bytes, apart from those of other keys unless a hash collides", "statement": "pub_to_addr never fails and gives 20 bytes (RIPEMD-160 of SHA-256), sha256_digest and ripemd160_digest never report a wrong length. The bech32 text of the account decodes to it and widens to the 32 bytes a message carries. If two keys have the same account, then hashing them fed the compression function of SHA-256 or of RIPEMD-160 two different inputs with the same output.", "quantifier": "all byte strings (below 2^61 bytes where collisions are concerned), all prefixes", "why_tests_cant": "the functions have no tests; they are called by the integration tests only", "anchors": ["packages/interface/src/types/crypto.rs:33-66"]}
{"id": "C92", "title": "A failed query is never taken for an answer, and the gas limit decides only whether a transaction succeeds", "statement": "Whatever a contract does (execute, query, instantiate) when some of its queries fail, it does identically when fewer of them fail. So a transaction that succeeds under one limit on nested calls and queries succeeds under every greater one and leaves the same contracts, coins, token administrators and database bytes; two limits that both suffice give the same chain, also over whole histories and for messages submitted as text. This needs the programs outside the repository to behave likewise (a program that catches failing submessages can tell limits apart: C92_catching_refuted).", "quantifier": "all contracts, messages, states and queriers; all chains, transactions, histories and limits", "why_tests_cant": "tests run with unlimited gas and mock queriers that always answer; a swallowed query error would show only when one query of a nested call fails", "anchors": ["contracts/core/mailbox/src/execute.rs:95-245", "contracts/isms/aggregate/src/lib.rs:136-160", "contracts/hooks/aggregate/src/lib.rs:77-185", "contracts/igps/core/src/query.rs:61-137", "packages/interface/src/ism/mod.rs:93-117", "packages/interface/src/hook/mod.rs:76-107"]}
{"id": "C93", "title": "A delivered message was dispatched at its origin as long as fewer validators lie than the threshold", "statement": "If the security module consulted for a message is a multisig that knows fewer dishonest validators for the origin than its threshold, or is built by aggregation and routing from such modules so that no set of unguarded modules reaches a threshold, it accepts the message only with the signature of an honest validator within the metadata. Validators that sign only checkpoints whose message id is a leaf of the origin's merkle hook (for instance all checkpoints the hook ever reported) then guarantee: every message of that origin a mailbox delivered was dispatched by the origin's mailbox, or two different byte strings that were actually hashed have the same Keccak-256 value, and the statement says which strings those can be. For two connected warp routes the amounts given out plus those under way equal the amounts taken. Guarded in both directions, a collateral and a bridged route are solvent: what is locked equals what is issued plus what is under way. As many dishonest validators as the threshold suffice to break it (C93_as_many_liars_refuted).", "quantifier": "all pairs of chains and histories, all compositions of modules, all validator sets, thresholds, metadata, messages and signature schemes", "why_tests_cant": "tests verify single signatures of fixed messages against one module; none relates what one chain delivers to what another dispatched, and none lets validators lie", "anchors": ["contracts/isms/multisig/src/query.rs:21-68", "contracts/isms/aggregate/src/lib.rs:136-160", "contracts/isms/routing/src/contract.rs:112-124", "contracts/hooks/merkle/src/lib.rs:78-122", "contracts/core/mailbox/src/execute.rs:156-245"]}
{"id": "C94", "title": "Who relays a message, and when, makes no difference", "statement": "The account that calls process on a mailbox or announce on the validator announce contract, and the block height, decide nothing but the note (relayer, height) a mailbox keeps beside a delivered message, and that note decides nothing: no query of the mailbox returns it and no call reads it. So a history told again with other accounts relaying (attaching no coins) ends with the same contracts in the same states, the same coins and the same answers to all queries, apart from those notes; likewise whichever of two relayers wins a race. If the programs outside the repository do not look at the height, blocks may end anywhere in the history as well (a program that does can tell: C94_diary_refuted).", "quantifier": "all contracts, states, messages, callers and heights; all chains, histories and choices of relayers and blocks", "why_tests_cant": "tests call process as one fixed sender at one mock height; that no later call depends on who relayed is a statement about pairs of histories", "anchors": ["contracts/core/mailbox/src/execute.rs:156-245", "contracts/core/mailbox/src/query.rs:50-58", "contracts/core/mailbox/src/state.rs:50-65", "contracts/core/va/src/contract.rs:153-216"]}
{"id": "C95", "title": "People who own nothing change no setting and stop no delivery", "statement": "No call by somebody who is neither the owner of a contract nor the one its ownership is offered to changes anything of it but, for a mailbox, the count of messages sent, the last one sent and the record of those delivered. So while those in charge of a contract sign nothing, nothing others do (transactions, programs of their own, modules, calls from contracts they get called) changes its settings. In particular a message that can be delivered now, through modules of the project whose owners stay idle, has been delivered after any such history or can still be delivered with the same metadata, and if it is a transfer anybody can have the recipient paid.", "quantifier": "all contracts with an owner, callers, messages and queriers; all chains and all histories of transactions not signed by those in charge", "why_tests_cant": "tests check single unauthorised calls on fresh contracts; that no sequence of calls by others, through any contracts, ever blocks a deliverable message is a statement about all histories", "anchors": ["packages/ownable/src/lib.rs:30-145", "packages/pausable/src/lib.rs:20-80", "packages/connection/src/lib.rs:27-70", "packages/router/src/lib.rs:35-108", "contracts/core/mailbox/src/execute.rs:34-245", "contracts/isms/multisig/src/contract.rs:42-103", "contracts/isms/aggregate/src/lib.rs:67-105", "contracts/isms/routing/src/contract.rs:45-101", "contracts/isms/pausable/src/lib.rs:60-72"]}
{"id": "C96", "title": "Quotes and verdicts change only when somebody in charge acts", "statement": "What a contract answers about fees, settings and the validity of messages depends on its settings only, never on the messages that passed through it, on the nonce the next message would get, or on block height: so an answer obtained from contracts whose owners (and pending owners) then sign nothing is the answer after any history of transactions by others, through any contracts. In particular a quote for a dispatch stays exact: a message that could be dispatched for certain fees can be dispatched later for the same fees to the same payees, differing in its nonce only, until nonces or the merkle tree run out. An owner who acts in between can make the quoted payment fail.", "quantifier": "all contracts, questions other than those about traffic, messages, chains and histories of transactions not signed by those in charge", "why_tests_cant": "tests compare a quote with a payment in the same block; that no other people's traffic or attempted reconfiguration can ever invalidate a quote is a statement about all histories", "anchors": ["contracts/core/mailbox/src/query.rs:88-132", "contracts/core/mailbox/src/execute.rs:96-207", "contracts/hooks/fee/src/lib.rs:75-155", "contracts/hooks/aggregate/src/lib.rs:77-185", "contracts/hooks/merkle/src/lib.rs:78-150", "contracts/igps/core/src/query.rs:61-140", "contracts/igps/oracle/src/contract.rs:36-101"]}
{"id": "C97", "title": "A backlog of transfers can be delivered in any order, with the same result", "statement": "Given any number of different undelivered messages, each of which the security modules (contracts of this repository) accept and which bids a warp route at the mailbox pay somebody, if the routes can afford all of them together, then submitting them one after the other succeeds each time, in whatever order and by whatever accounts: every recipient has exactly their amounts, every locking route paid exactly its own, the mailbox reports exactly these messages delivered besides those before and answers all else as before, and no other contract changed. Any two orders therefore lead to the same balances, token holdings and deliveries. If a locking route cannot afford all of them, the order decides who is paid.", "quantifier": "all finite lists of deliverable messages, all permutations, all reachable chains, any mixture of native and cw20, locking and issuing routes", "why_tests_cant": "tests deliver one message to a fresh route; that deliveries neither disable nor alter one another, for any number of messages to any routes sharing tokens, is a statement about all lists and orders", "anchors": ["contracts/core/mailbox/src/execute.rs:156-226", "contracts/warp/native/src/contract.rs:146-195", "contracts/warp/cw20/src/contract.rs:142-182", "contracts/isms/multisig/src/query.rs:21-68", "contracts/isms/aggregate/src/lib.rs:136-160", "contracts/isms/routing/src/contract.rs:112-124"]}
{"id": "C98", "title": "A signed announcement can be entered by anybody, kept out by nobody, and stays", "statement": "On any chain, the locations the validator announce contract lists for a validator are exactly those entered for it, each signed by that validator for this contract's mailbox and domain, in order and none twice; the domain is the one its mailbox reports. An account that submits a signed announcement not entered before succeeds, whatever state the rest of the chain is in, and the transaction changes nothing but that list. Whatever transactions others slip in before it, including the same announcement, the location is listed exactly once afterwards, unless a different announcement with the same keccak hash was entered. No transaction removes a listed location or moves one before it. Coins sent along with an announcement are accepted and can never leave the contract again.", "quantifier": "all chains, all reachable worlds, all interleaved transactions of anybody, all validators, signatures, locations and senders", "why_tests_cant": "tests call announce on a mocked contract with one signature; that nobody can block, front-run to any effect, displace or forge an entry is a statement about every transaction of every other party on a chain", "anchors": ["contracts/core/va/src/contract.rs:27-55", "contracts/core/va/src/contract.rs:85-121", "contracts/core/va/src/contract.rs:123-216"]}
{"id": "C99", "title": "Coins sent to a contract that has no use for them are lost", "statement": "Only these calls send coins anywhere: a dispatch at the mailbox, a post-dispatch at the aggregate hook or the gas paymaster, a gas payment, a claim at the fee hook or the gas paymaster, and a remote transfer or (native route) a delivery at a warp route; no other accepted call, no reply and no deployment does. Every security module, the routing, pausable and merkle hooks, the oracle, the validator announce and the cw20 token answer each call the same whatever coins come with it, so none refuses them; what such a contract holds on a chain is exactly what it was ever given, and no sequence of transactions lowers it. The mailbox likewise passes on what came with dispatches and keeps for ever what came with any other call.", "quantifier": "all contracts of the repository, all calls, senders, funds and states; all chains, all reachable worlds and all sequences of further transactions", "why_tests_cant": "tests attach no coins to calls that need none; that no later call of anybody, owner included, can move them is a statement about every sequence of transactions", "anchors": ["contracts/core/mailbox/src/contract.rs:51-70", "contracts/core/mailbox/src/execute.rs:95-226", "contracts/core/va/src/contract.rs:57-83", "contracts/isms/multisig/src/contract.rs:42-102", "contracts/isms/aggregate/src/lib.rs:67-104", "contracts/hooks/routing/src/lib.rs:65-145", "contracts/hooks/aggregate/src/lib.rs:77-133", "contracts/igps/core/src/execute.rs:90-183", "contracts/warp/native/src/contract.rs:146-268"]}
{"id": "C100", "title": "Collected fees leave only by the claim of whoever is entitled, and that claim always succeeds", "statement": "Over any sequence of transactions, what a fee hook holds of each denomination grows by all that comes in and falls by claims only; the same goes for the gas paymaster except for the change given on gas payments, which never exceeds what those payments brought. Every claim was made by the hook's owner, or the paymaster's beneficiary, of that moment. That account can at any time collect: the whole holding of the fee hook, in all denominations, goes to the address named, the whole gas-token holding of the paymaster to the beneficiary, and nothing else moves. Coins of other denominations at a paymaster are lost. An aggregate hook, by contrast, looks neither at who posts a message nor at what is paid with it: coins somebody left there can be spent by anybody on the fees of any message.", "quantifier": "all chains, all reachable worlds, all sequences of transactions of anybody, all denominations and amounts below 2^128, all fee hooks, paymasters and aggregate hooks", "why_tests_cant": "tests check one claim on a mocked balance; that no other call, reply or re-entrant sequence ever lowers the till, and that a claim cannot be blocked, concerns all executions", "anchors": ["contracts/hooks/fee/src/lib.rs:75-131", "contracts/igps/core/src/execute.rs:90-183", "contracts/hooks/aggregate/src/lib.rs:77-133"]}
{"id": "C101", "title": "Nobody's money moves without their word", "statement": "On a chain, an account never loses more coins than it attached to the transactions it signed itself; one that signs nothing loses nothing. Somebody who neither calls a token contract nor asks for a remote transfer loses cw20 tokens only through allowances they gave, each of which falls by exactly what is drawn on it; and a contract of this project, such as a warp route, never draws on the allowance it holds unless the holder asks for a transfer. So whoever gave allowances to contracts only keeps all tokens and allowances, whatever others do; allowances given to people are theirs to use. An allowance grows only by the giver's own call, and by no more than it names.", "quantifier": "every chain, mix of contracts (also unknown ones), history of transactions, account, denomination, token contract, spender", "why_tests_cant": "a test tries some callers; a route that could be talked into moving tokens of someone other than its caller, directly or by way of hooks, replies and other contracts, would be found only by trying all of them", "anchors": ["contracts/warp/cw20/src/contract.rs:185-255", "contracts/warp/native/src/contract.rs:198-268", "contracts/hooks/aggregate/src/lib.rs", "contracts/igps/core/src/execute.rs:143-183"]}
{"id": "C102", "title": "Errors tell the truth", "statement": "When a contract that was created and called in any way refuses a message with an error of its own (not a generic one of the libraries), what the error says is the case, in terms of what the contract reports and others answer: unauthorized only to somebody other than the one the call is reserved for (owner, pending owner, beneficiary, mailbox, enrolled route, message just dispatched); payment too small, missing, of the wrong denomination or in several denominations only if it is; already delivered, wrong version, wrong destination, verification failed, replay, no route, no gas oracle, paused, tree full, invalid value likewise; and no call gives an error not listed for it. The same goes for queries (no route, paused, no gas oracle, a signature of nobody) and for creation (a prefix not in lower case). Conversely, a setting the owner could make is refused to anybody else with unauthorized, and so are a claim by somebody other than the beneficiary, a delivery at a warp route not made by its mailbox or not from the enrolled route, and a claim of ownership offered to somebody else; a relayer whose message is not delivered gets, in this order of priority, the version, destination, delivered or verification error; a sender whose recipient has the wrong length or who pays less than the required hook asks is told so; whoever posts a message to a hook learns that it is paused, has no route, did not see the message dispatched or is paid nothing, too little, in the wrong or in several denominations; somebody paying for gas gets the error that fits the coins attached, the missing oracle or the price; and a repeated announcement is called a replay whatever its signature.", "quantifier": "all contracts but the token contract, all reachable states, all callers, messages, funds and answers of other contracts", "why_tests_cant": "tests provoke each error once in the state meant for it; that no other input or state leads to the same error, and so that front ends and relayers may act upon it, is about all of them", "anchors": ["contracts/core/mailbox/src/execute.rs:24-226", "contracts/core/mailbox/src/error.rs", "contracts/core/va/src/contract.rs:152-205", "contracts/igps/core/src/execute.rs:20-183", "contracts/hooks/fee/src/lib.rs:75-131", "packages/ownable/src/lib.rs:62-118", "packages/pausable/src/lib.rs:28-62"]}
