# A Rocq model of moggle-mog/goav

## 1. Shape of the development

`rocq/theories` is split in four layers.

* `Base/` - Go-level vocabulary: byte strings (`list Z`), fixed-width wrap-around,
  big-endian codecs, outcomes (`Ok` / `Err` / `Panic` / `OutOfFuel`), scripted writers
  and readers.
* `Model/` - one file per Go file or small group of Go files, function by function. Every
  definition cites the file and lines in /repo it models. No proofs here.
* `Spec/` - independent specifications (an FLV reader, an ADTS reader, a TS/PSI/PES reader,
  bit-serial CRC, abstract GOP history, ...), written from the public formats
  and not from the model's helpers.
* `Proofs/` - lemmas.
* `Props/` - the theorems. Each statement mentions only the model's API functions and `Spec/`;
  each is closed by an `exact`, followed by `Print Assumptions`, with an
  `Example` showing that a concrete non-trivial case meets its hypotheses.
* `Conform/` - the repository's own unit-test vectors replayed on the model by computation. They tie the
  hand-written model to the behaviour the Go tests pin; they are not claimed as proofs.

### Conventions

* a byte is a `Z`; `Forall byte s` says every element is in [0,256). Go's `int` is 64 bits. All
  conversions that truncate in Go (`byte(x)`, `uint16(x)`, `uint32 * 90`) are explicit `mod`.
* a Go function that can panic (slice bounds, nil map, failed type assertion) returns `Panic`.
* writers are scripted: a script says for each Write call whether it succeeds or accepts only a prefix
  and fails. Quantifying over scripts is quantifying over all crash points.
* readers deliver a list of chunks, so short reads are schedules.
* map iteration order is an explicit argument (a list of pairs with distinct keys); quantifying over
  it is quantifying over all orders.
* decoded AMF maps live in a heap, so aliasing by reference markers is visible.
* fuelled loops return `OutOfFuel`; a theorem shows it never occurs at the fuel the API uses.

### Refuted properties

Several properties a user would expect are false of this code. For those the full statement
stays in `properties.jsonl`; the development proves `..._refuted` (a concrete counterexample of the
full statement) and, where there is one, a positive theorem with suffix `_partial` on the
largest domain on which the property holds. In MANIFEST.json these are `partial` with a note.

## 2. Plan per property

| id | modelled | proof |
|----|----------|-------|
| C01 C02 C03 C07 | flv/muxer.go, flv/mixer.go over scripted writers | induction over packet lists against an independent FLV reader; C02 refuted at 2^24; prefix lemma over all scripts |
| C04 C05 C06 | flv/tag.go, flv/demuxer.go | case analysis + bit-field arithmetic; C05, C06 refuted, partial for values < 2^23 / fresh tags |
| C08-C13 | gop/*.go, packet/ | refinement: ring buffer state abstracts to "last N GOPs of the history"; C09 refuted at 1024, proved at 1025 |
| C14 | packet/types.go | induction over call sequences |
| C15-C19 | parser/aac | arithmetic; independent ADTS reader; C16, C18 refuted + partial |
| C20 | parser/mp3 | refuted, exact characterisation of when it holds |
| C21-C26 | parser/h264 | recursion over NAL lists against a specification of the expected unit sequence; C23-C26 refuted + partial |
| C27 C28 | parser/parser.go | case analysis; C28 refuted |
| C29 C30 | ts/crc32.go with its literal table | table entries checked against the bit-serial definition by computation, lifted to all inputs by xor-linearity; burst detection by injectivity of the shift |
| C31-C36 | ts/muxer.go PAT/PMT/SDT, ts/table | closed forms of packets, independent section parser; C33, C35, C36 refuted |
| C37-C45 | ts/muxer.go Mux, table/pes.go | loop invariant, independent TS demultiplexer; C38, C39, C43, C44 refuted + partial |
| C46 C47 | ts/sync.go | invariant over histories; C47 refuted |
| C48 C49 | ts/mixer.go | arithmetic; refuted + partial; C49_counters (Props/TsGaps.v): the packets made by every call, sent or not, have gap-free counters |
| C50 C51 | table/descriptor.go | parser round trip; C51 refuted |
| C52-C63 C73 C76 | amf/amf0.go, amf/helper.go | mutual structural induction on values; fuel sufficiency; heap relation; refutations by computation |
| C64-C72 | amf/amf3.go | the same |
| C74 C75 | amf/metadata.go | case analysis over the decoder; C75 refuted |
| C77-C94 | sips/*.go | state-machine scanning lemmas; refutations by computation |
| C95 C96 | amf encoders | wire formats as independent relations (`wire0`, `wire3`); structural induction on values |
| C97 C98 | amf3.go Encode, EncodeBatch, DecodeBatch | honest-count invariant over scripted writers; induction over the batch |
| C99 | flv/mixer.go SetFlvHeader | case analysis over writer scripts |
| C100 C101 | parser/h264, parser/aac over failing writers | prefix and error-reporting lemmas over all scripts |
| C102 C103 C105 | ts/mixer.go end to end | composition of parser and muxer theorems against the independent demultiplexer |
| C104 | ts/muxer.go over failing writers | loop invariant over scripts |
| C106-C117 | sips/*.go messages, streams, accessors | totality and termination measures; segmentation independence; message round trip; accessor laws |
| C118-C120 | Model/TsAlias.v: ts/mixer.go over an explicit memory | refinement to private copies under single use; refutations in every history |
| C121 | Model/Amf3Ext.v: AMF3 with registered handlers | handlers unreachable, for every handler table and history |
| C122 | ts/mixer.go SetTsHeader after any history | invariant over call lists |
| C123-C125 | amf0.go against the grammar in Spec/AmfDoc.v | structural induction on layouts (completeness), inversion of the decoder monad (soundness) |
| C126-C128 | amf3.go against the grammar in Spec/Amf3Doc.v | mutual induction on the grammar (completeness), step-wise acceptance relation (soundness) |
| C129 | one packet given to several FLV mixers (mixer.go, muxer.go of container/flv): the in-place edit of Data | unfold the two writes; refuted for metadata, proved for media |
| C130-C132 | the remuxing loop: flv Demux, then the TS Mixer's Save, Update and Mux; a demultiplexer in Spec/Ts.v | C04, C21, C103, C105 composed over histories of bodies; totality of each call; induction over the calls with one chunk of packets per call |
| C133 C134 | amf decoding from readers that break or return data with the final error | traversal of every decoding step (Proofs/AmfWith.v); C134 refuted exactly for encoded AMF0 values |
| C135 C136 | amf0.go Decode on documents with references | grammar of documents cut before a value (open0 in Spec/AmfDoc.v); inversion of every decoding step for only-if, induction on documents and cuts for if (Proofs/Amf0Acc.v, Amf0Panic.v) |
| C137 | amf0.go decodeReference and every place that fills the reference table | denotation of documents with references (deref in Spec/AmfDoc.v), in two variants: the specification's and the library's; induction on documents with a table invariant that leaves open the maps still being read (Proofs/Amf0Ref.v) |
| C138 C139 | easy.go, SetHeader, SetBody and Bytes on messages that share cells (Model/SipShare.v) | a pool of maps, requests, bodies and messages; what Bytes writes is invisible to every text (invariant over histories, Proofs/SipShare.v) |
| C140 C141 | Parse over any io.Reader: failing, returning data with its error, returning nothing (Model/SipSrc.v) | simulation between readers (Proofs/SipSrc.v), and equality with Model/Sip.v on sources that end with io.EOF |
| C142 C143 | AMF3 Decode against the grammar with object references in Spec/Amf3Ref.v, in the reading of the specification and of the library | mutual induction on the grammar (completeness), step-wise acceptance with missing bytes (soundness), simulation between the readings (Proofs/Amf3Ref.v, Amf3RefAcc.v, Amf3Common.v) |
| C144 C145 | Args: Set, Get, Del, CRLFString, ParseArgsPairs (Model/Sip.v) | induction on the list of calls; splitting of the text into lines (Proofs/SipArgs.v) |
| C146 C149 | gop/*.go over packets held by pointer, any program and writers (Model/GopPtr.v) | simulation between ring of pointers and list of (kind, pointer), by parametricity of the ring in its element type (Proofs/GopPtr.v); C149 refuted, partial for programs that do not assign packets |
| C147 | Cache.SendTo with FLV mixers as writers (Props/Serve.v) | what Mux does to a payload is idempotent when metadata has at most one @setDataFrame; refuted otherwise |
| C148 | Cache.SendTo with TS mixers as writers, over memory (Props/ServeTs.v, Model/TsAlias.v) | refuted by C119 and a third Mux; for subscribers that copy the packet struct: the invariant of C118 step by step |
| C150 C151 | SendTo with writers that write to the same cache (Model/GopLive.v) | refinement: slot c of the ring is the latest group with number c modulo N (Proofs/GopLive.v); C151 refuted from it, partial without key frames |
| C152 | ParseFirstLine on every line and object (Spec/SipLine.v) | equivalence between the parser and a relation; case analysis on words, versions, methods, numerals |
| C153 | Parse on an object used before | refuted by an invariant over all lines; partial after resetting the object |
| C154 | NewSIPRequest, NewSIPUser, NewSIPVia on every text (Spec/SipAddr.v) | equivalence: the scanners are simulated along the grammar by induction, and every text has a reading |
| C155 | ParseArgsPairs on every ASCII text (Spec/SipParams.v) | induction over the elements and quoted strings; every text has a division |
| C156 | Parse as a whole on every input (Spec/SipWhole.v) | every text has a division into lines; the line loop follows it; three exclusive cases, each with its outcome |
| C157 | pes_gen, GeneratePesHeader on an object of any history (Spec/Pes.v) | the header bytes as a function of the number of calls that wrote both times and the last of them, by induction on the history; false as stated, refuted for every such history |
| C158 | write_stuff, write_pcr on any slice | exact outcome, read back by the receiver of Spec/Ts.v |
| C159 | the decoders with a log of the buffers they make (Model/AmfAlloc.v), proved to be the decoders | refuted for every size; bounds by an accounting in which each byte read pays for itself and one slot |
| C160 | f64_of_f32 on bit patterns, in front of Encode | arithmetic on the fields, then C52 and C65 |
| C161 | Spec/TsClock.v: a clock driven by the list of calls. | Invariant over histories with the rates of C19, C20 and C28; the bytes by C132. |
| C162 | Spec/AmfCut.v lists the pieces of a layout and says which must not be cut; a triple that tracks chunk boundaries, by induction over documents | Props/AmfCut.v |
| C163 | Spec/AmfAll.v: documents with the AMF3 tables threaded through the embedded values; one relation for an input that begins with a document, one for an input that refers to the next free place | Induction on documents for acceptance, on fuel for the converse; three outcomes, each characterised by an equivalence |
| C164 | Spec/AmfVal.v: a big-step relation giving the value of a document, the AMF3 tables and the AMF0 table after it | Mutual induction on the relation; totality by induction on documents |
| C165 | refers_up in Spec/AmfVal.v: a reference to the place of an enclosing map; finite: unfolds to some tree | If no such reference, C164; otherwise, by induction on documents and on the size of a supposed tree, no tree is one |
| C166 | padded in Spec/AmfPad.v: the chunks with runs of zeros behind them | Backward simulation of every decoder step, with the fuel of the longer input; the refutation by computation with any U29 form |
| C167 | to_viewer in Spec/Relay.v: groups from the first two bytes of the bodies; tags read by the reader of Spec/Flv.v. The program is relay in Model/Relay.v | Refinement to the history of Spec/GopPtr.v, with an invariant from histories to bodies over any events; serve_one of C147 for the sharing |
| C168 | live in Props/Recording.v: an inductive description of streams with the units and frames a player should find; the reader is demultiplex of Spec/Ts.v | Invariant sofar over the calls made so far, C132 for the read-back |
| C169 | ts_events (to_viewer n (published es)) as a stream of C168 | The invariant of C167 shows which packets the cache holds; assignments by FLV mixers change only metadata, for which no TS call is made; then C168 |
| C170 | units0, the pieces of a document (Spec/AmfCut.v), stops_between and stops_inside (Spec/AmfTrunc.v) | Induction over documents with a predicate for what a decoder says about its pieces; induction over the batch |
| C171 | The heap of maps before and after, and unfolds of Spec/Amf.v | keeps invariant of all decoding functions (Proofs/AmfHeap.v), induction over batches and calls |
| C172 | value_pieces, the grammar of Spec/Amf3Doc.v with pieces for bytes, and the stops_ predicates (Spec/Amf3Trunc.v) | Induction over the grammar with a predicate for what a decoder says about its pieces, uniform in what follows; then C126 for the zero-filled document |
| C173 | converted and stream_converted, relations between packets and outputs (Spec/H264.v) | Each case of the relation against the plan of Write calls; uniqueness of the split into units by induction |
| C174 | codec_converted and codec_stream, relations between packets, what is remembered and outputs (Spec/Codec.v) | A simulation between the parser's state and what the specification remembers; uniqueness from it |
| C175 | version_of and the player watch/play, which ignores known versions (Spec/Player.v) | The version byte of every table; the player's state is constant after the first tables |
| C176 | play, a player driven by PAT and PMT (Spec/Player.v) | What each call writes, by PID; the player's state before and after the first tables; C132 for the frames |
| C177 | clocks, clock_often: what a receiver reads from the adaptation fields (Spec/Pcr.v) | The marks of one frame's packets, then induction over the calls |
| C178 | decode_time (Spec/Pcr.v) | The first packet's PCR and the reassembled PES packet of one frame |
| C179 | mixed (Spec/Mixer.v): an inductive description of answers and frames from the calls alone, using the clock of Spec/TsClock.v and the codecs of Spec/Codec.v | Each call against the description, induction over the history, C132 for the read-back |
| C180 | text_at, without_command, with_command (Spec/Command.v) | C163 and C164 for the first value; only four markers give texts |
| C181 | written0, counted0, supported, cut_off (Spec/AmfRaw.v) | Induction over the value |
| C182 | carried, kept, call_flv, flv_mixed, piece_bytes (Spec/FlvMixer.v) | Invariant relating the caches to the last save of each kind; C180 and C181 for metadata |
| C183 | written3, supported3, go_value (Spec/AmfRaw3.v) | Induction over the value; C96 within the limits |
| C184 | uncut, first_cut (Spec/Amf3Cut.v) over the pieces of C172 | Induction over the grammar of pieces; fuel independence of Decode |
| C185 | into, first_of, object_of (Spec/SipAgain.v): tables of values by name and the latest name | Induction over lines, then the outcome of C156's reading |
| C186 | ahead, taken (Spec/SipBytes.v): how far is read ahead, and the number of bytes taken | Simulation of the buffered reader by a text and a number, induction over lines and blocks |
| C187 | flv_ran (Spec/FlvWriters.v): C182's call_flv, with the Write calls meant and a relation for delivering them | Step-by-step simulation; plans of Write calls do not depend on the writer |
| C188 | ts_ran (Spec/TsWriters.v): C179's call_mixed with the packets meant and C187's relation for delivering them | Step-by-step simulation; what a call writes does not depend on the writer; C132 on the segment after SetWriter |
| C189 | Composition of Parse, CopyFrom, MakeResponse, Bytes and Parse | C108 and C117, and what a successful Parse leaves in the typed fields; universal refutation for two Via values |
| C190 | Relation for any number of hops (Spec/SipHops.v) | Induction over the hops: what is read is a plain message again, and C116 is transitive |
| C191 | Spellings as an inductive relation (Spec/SipNames.v) | Induction over the decoded runes of the name; parameters from C155 |
| C192 | UTF-8, characters, white space and elements as relations (Spec/SipUtf8.v) | Decoder and specification of UTF-8 agree (both directions); decoding commutes with trimming because a text may be cut before any byte that is not a continuation byte |
| C193 | `nearest`, by comparison with every other binary64 pattern, and `to_int64` (Spec/Nearest.v, on the patterns of Spec/Float32.v) | Magnitudes as integers times 2^-1074 are strictly increasing in the pattern; the rounding picks the nearer of two neighbours; uniqueness from the pattern between |
| C194 | What a value comes back as, byte by byte (Spec/SipQuote.v) | strconv.Quote writes a quoted string of C155 standing for it; CommaString writes the elements of C155 |
| C195 | Values with a line feed, and the message with two headers in place of one | Invariant over the lines read; an order of the other message's headers that gives the same text |
| C196 | The fields of the written text and what each is read as (Spec/SipMany.v) | The text is cut into lines of C156, and these into its fields |
| C197 | Accessors as functions of the latest bodies of each kind (Spec/FlvTag.v) | Invariant over the history of calls |
| C198 | Sequences of Write calls with any one failing (Spec/AmfFail.v) | Every encoder is a fixed plan of calls, compositionally; its text is that of C181 and C183 |
| C199 | Programs over maps (Model/SipMaps.v), the last value set (Spec/SipMaps.v) | Invariant: every map has one value under each name set, the last one |
| C200 | Programs of C199, messages made of their maps (Spec/SipBuilt.v) | The map has distinct lower-case names and one value each, so C196 applies; the values received are the last ones of C199 |
| C201 | A list of messages, their texts concatenated (Spec/SipPipe.v) | The lines of all of them are the lines of one message: C156 with the fields of C196 and of the first lines |
| C202 | packets_of over the frames and verdicts of C179 (Spec/TsSize.v) | Induction over the history: packets of one Mux (mux_frame), three tables |
| C203 | An Annex B reader by start codes alone, and the units to be found (Spec/AnnexB.v) | All that is written is the byte stream of a list of legal units; C173 and C168 |
| C204 | The data EncodeBatch and AddMetaHeader produce, the tags an FLV reader finds, the values DecodeBatch gives | C59, C74, C01 and C03 |
| C205 | The Go value go_value p of a decoded value p, documents of Spec/AmfDoc.v without AMF3 values | The values of C164 are sendable by induction on the reading; C52 for the way back |
| C206 | A receiver that follows ISO/IEC 13818-1, and which units arrive whole, in Spec/TsLoss.v | Induction over the packets with what the receiver has seen since the last packet that arrived; C49 and C132 for the stream sent |
| C207 | An ADTS stream reader, and the frames of a stream, in Spec/AdtsStream.v | Induction over the packets; C15 and C168 for each frame |
| C208 | The Go value for a decoded one, what comes back and the histories of a decoder in Spec/Amf3Again.v | An invariant of the decoder's tables for all calls and outcomes (Proofs/AmfHistory.v); induction over the layouts of C142; C183 and C65 |
| C209 | The data after n mixers in Spec/FanMeta.v, on top of Spec/Command.v (C180) | Induction over the mixers; C180 for each |
| C210 | A memory of argument maps that addresses refer to by number (Model/SipConv.v); last values as relations on the calls (Spec/SipConv.v) | Invariant over the calls: two addresses have one map if and only if they come from the same parsed one |
| C211 | Subscribers as in C147, what reaches the n-th as a relation over C209's after_mixers | Induction over the subscribers and over the replayed packets |
| C212 | The readers of Model/SipSrc.v, for both ways io.EOF may come | Simulation of one reader by the other as long as no last line fills the buffer; induction over the lines when one does |
| C213 | Bytes and Parse of Model/Sip.v; hops over readers that deliver any blocks (Spec/SipRelay.v) | Induction over the hops, with the message theorems behind C91 for one of them |
| C214 | The decoders with a log of Model/AmfAlloc.v | Accounting: every byte of a length field read pays for 2^30 bytes of the buffer of that length; induction over the nesting for the lower bound |
| C215 | The decoders with a count of active calls (Model/AmfCalls.v), proved to be the decoders | Accounting: two bytes are read before each further call; induction over the nesting for the examples that reach the bound |
| C216 | DecodeBatch and sequences of calls with the logs and counts of C159 and C215 (Model/AmfLife.v), proved to be the same calls | Induction over the batch and the calls; that the tables stay plain is part of the invariant |
| C217 | Parse, CopyFrom, MakeRequest, MakeResponse and Bytes as they are | C196 composed with C195; that spaces around an address change no field, from the relations of C154 (Proofs/SipTrim.v) |
| C218 | Model/TsAlias.v with every array of memory | relation between an array before and after the writes of one parse, invariant over the run |
| C219 | decode0 and encode0 as in C137 and C95 | induction on the depth for the refutation; induction on the document, with the length of the encoding independent of the order of members, for the true part |
| C220 | decode3 through the layouts of C142 and encode3 through the output of C183 | invariant over the layouts: the tables hold no more than was read, distinct names come from the table |
| C221 | SetHeader and SetBody on a message Parse read | induction on the calls; C115 |
| C222 | the class name of typed objects | inversion of the decoder; C181 for what is written; C52 |
| C223 | the address objects and Src (Model/SipAddrObj.v) | induction on the history; C80, C81 for reading back |

## 3. Trusted base

**Checker.** Coq 8.16.1's kernel (and `coqchk`, which re-checks the compiled files). `vm_compute` is used in proofs by
computation (CRC table, examples), so the kernel's virtual machine is trusted as well; `native_compute` is not used.

**Axioms.** None. `Print Assumptions` stands under every theorem in `Props/`, and for each of them prints
`Closed under the global context`. No file declares an axiom, parameter, section-less variable or hypothesis; there is no
`Admitted`, no module type, functor or `Declare Module`, and no kernel check is switched off. The sections in `Model/` and
`Proofs/` are closed before any theorem is stated. `coqchk` lists, as axioms of loaded libraries, the seven
`Coq.ssr.ssrunder.Under_rel` constants of the standard library's ssreflect support; no theorem here depends on them. Only the standard
library is imported: no mathcomp, std++, Iris, Equations, Flocq.

**The model.** Hand-written from the Go text; that it says what the Go code does is trusted. Every definition cites its
source lines. `Conform/` replays the vectors of the repository's unit tests on the model.

### Modelled

All non-test Go files: `amf/` (amf0, amf3, amf3_external, helper, metadata), `container/flv/`, `container/ts/` and `container/ts/table/`,
`gop/`, `packet/`, `parser/` (aac, h264, mp3), `sips/`. Functions without a definition of their own: one-line accessors and constructors
that return a record or a field (`NewDemuxer`, `Descriptor.GetBuffer`, `newArray`, `array.reset`, `newFrameCache`,
`LayerContents`, `LayerPayload`, `NewSIPHeader`, `GetAllHeaders`, `SIPHeader.String`, `NewArgs`, `SIP.Payload`,
`writeBytes`), inlined where they are used; the AMF3 single-marker encoders, inlined in `encode3`; `encodeUndefined` of AMF3,
which nothing calls.

Behaviour of Go and its library that the models rely on, and where it is defined: slices, bounds checks, integer
conversions (`Base/Go.v`); `io.Reader` and `io.Writer` contracts, `io.ReadFull`, `bufio.Reader`, `bytes.Buffer` (`Base/IO.v`, `Model/Sip.v`, `Model/SipSrc.v`);
`strings`, `strconv`, UTF-8 (`Base/Text.v`); IEEE 754 binary64 conversion, multiplication and division by an integer constant, as
integer arithmetic on bit patterns (`Base/Float64.v`); maps as lists of pairs in iteration order.

### Simplified or left out

* Error values are reduced to what callers can act on: `io.EOF`, `io.ErrUnexpectedEOF`, a writer's error, or another error. Messages are not modelled.
* `int` has 64 bits. Allocation never fails. Stack depth is unbounded (AMF nesting cannot overflow the stack).
* A reader delivers a finite list of chunks (possibly empty ones: a Read of 0 bytes and no error), then its final error for ever;
  the final error may be `io.EOF` or any other, and may come with the last chunk. A Read that returns an error and later more data
  is outside the model.
* Writers accept all of a slice, or a prefix with an error, by script; a writer never keeps or changes the slice it is given.
  A nil writer is not modelled.
* Media bytes are private to each packet except in `Model/TsAlias.v`, which is about sharing them. Packets are values except in
  `Model/GopPtr.v` and `Model/TsAlias.v`, where they are held by pointer; nil pointers are not modelled.
* SIP messages used concurrently, and the value slices of header maps shared through `GetHeader` (messages sharing a map, request or body are modelled in `Model/SipShare.v`).
* `strings.ToUpper` and `ToLower` map ASCII letters and the four non-ASCII runes whose partner is ASCII; other non-ASCII runes stay.
  `strconv.Quote` treats every valid non-ASCII rune as printable.
* AMF reflection on user structs (`reflect` kinds other than those in `tree`) is the constructor `TOther`, which Encode rejects. float32 values
  are given widened; Model/Float32.v is the widening.
* AMF3 external handlers may do anything with the decoder except register other handlers while a Decode runs.
* After a panic the partial state of the object is not described.

* Memory is counted only in `Model/AmfAlloc.v` (buffers made from sizes in the input; the branch for externalizable classes, which C121 proves is never taken, is not logged). Active calls are counted only in `Model/AmfCalls.v`, with the same exception; the size of their stack frames is not modelled.

Not expressible in the model: timing, real I/O, garbage collection and memory limits, data
races between goroutines using one object (the library has no goroutines and no locks).
