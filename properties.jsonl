{"id": "C01", "title": "FLV tag framing round-trips", "statement": "Every sequence of successful Mixer.Mux calls with payloads shorter than 2^24 bytes writes a byte stream that an independent FLV reader splits back into exactly those tags, in order: same tag type, same 32-bit timestamp, stream id 0, same payload, each followed by a PreviousTagSize equal to 11 + payload length.", "quantifier": "every list of audio/video/metadata packets, every 32-bit timestamp, every payload content of length < 2^24, every muxer history", "why_tests_cant": "the stream is a concatenation of self-delimiting records; one wrong length shifts everything after it, and payload contents and lengths are unbounded", "anchors": ["container/flv/muxer.go:mux", "container/flv/mixer.go:Mux"]}
{"id": "C02", "title": "FLV payload size limit", "statement": "Mux never returns success while emitting a tag whose 24-bit DataSize field differs from the payload length.", "quantifier": "every payload length", "why_tests_cant": "the bad case needs a payload of at least 16 MiB and the property is about every length", "anchors": ["container/flv/muxer.go:mux"]}
{"id": "C03", "title": "FLV header block reflects the saved headers", "statement": "After any history of SaveMetadata/SaveAVCHeader/SaveAACHeader/Mux/SetFlvHeader calls, SetFlvHeader writes the FLV signature with the video (audio) flag set iff a video (audio) header was ever saved, then the latest metadata tag, the latest AVC header tag and the latest AAC header tag, in that order, each omitted if never saved.", "quantifier": "every operation history of one Mixer", "why_tests_cant": "depends on the whole call history", "anchors": ["container/flv/mixer.go:SetFlvHeader,SaveMetadata,SaveAVCHeader,SaveAACHeader", "container/flv/muxer.go:header", "packet/types.go"]}
{"id": "C04", "title": "FLV demux splits header and media exactly and never panics", "statement": "Demux on any byte string and any packet type returns either an error leaving the packet unchanged, or a header whose fields are exactly the FLV bit fields of the leading bytes and a Media that is exactly the remaining bytes; it never panics.", "quantifier": "every byte string (any length, including empty), every packet type", "why_tests_cant": "all byte values and lengths", "anchors": ["container/flv/demuxer.go:Demux", "container/flv/tag.go:ParseMediaTagHeader"]}
{"id": "C05", "title": "Composition time is a signed 24-bit value", "statement": "For an AVC NALU packet CompositionTime() returns the signed 24-bit (SI24) value stored in bytes 2..4 of the tag.", "quantifier": "every 24-bit field value", "why_tests_cant": "2^24 values; only negative ones fail", "anchors": ["container/flv/tag.go:parseVideoHeader,CompositionTime"]}
{"id": "C06", "title": "Tag parse result depends only on the input", "statement": "ParseMediaTagHeader gives the same observable header for the same bytes whatever Tag value it is called on (fresh or previously used).", "quantifier": "every previous Tag state and every input", "why_tests_cant": "depends on prior calls on the same object", "anchors": ["container/flv/tag.go:ParseMediaTagHeader"]}
{"id": "C07", "title": "FLV mux reports writer failures", "statement": "If the underlying writer fails during Mux, Mux returns that error, and what reached the writer is a prefix of the bytes a successful call would have written.", "quantifier": "every packet and every failure point of the writer (any write call, any number of bytes accepted)", "why_tests_cant": "every crash point", "anchors": ["container/flv/muxer.go:mux"]}
{"id": "C08", "title": "GOP cache replays the last N GOPs in order", "statement": "After any history of writes that all succeeded, SendTo on a healthy writer emits: the latest metadata packet, the latest video sequence header, the latest audio sequence header, then the packets of the last min(N, #keyframes) GOPs, oldest GOP first, each GOP being its keyframe followed by the inter frames written after it, in write order.", "quantifier": "every capacity N >= 0 and every sequence of packets", "why_tests_cant": "ring-buffer position depends on the unbounded history", "anchors": ["gop/gop.go:Write,SendTo", "gop/cache.go:Write,SendTo", "gop/array.go", "gop/frame.go"]}
{"id": "C09", "title": "GOP cache is bounded", "statement": "No history makes the cache hold more than N GOPs or more than maxGop=1024 packets in one GOP.", "quantifier": "every history", "why_tests_cant": "unbounded histories; the bound is off by one at packet 1025", "anchors": ["gop/array.go:write", "gop/gop.go"]}
{"id": "C10", "title": "Replay always starts with a key frame", "statement": "Whatever was written (including rejected writes), the GOP part of a replay is empty or starts with a key frame, and every inter frame in it is preceded by the key frame of its own GOP.", "quantifier": "every history including rejected writes", "why_tests_cant": "unbounded histories", "anchors": ["gop/gop.go:Write,SendTo", "gop/cache.go"]}
{"id": "C11", "title": "Rejected writes leave the replay unchanged", "statement": "If Cache.Write returns an error (inter frame before the first key frame, GOP too long) a later SendTo emits exactly what it would have emitted before that write.", "quantifier": "every history and packet", "why_tests_cant": "needs every reachable state", "anchors": ["gop/gop.go:Write", "gop/array.go:write"]}
{"id": "C12", "title": "GOP SendTo stops at the first writer failure", "statement": "With a writer that fails at its k-th call SendTo returns an error after having delivered exactly the first k-1 packets of the full replay; SendTo never changes the cache.", "quantifier": "every cache state, every failure index k", "why_tests_cant": "every failure point", "anchors": ["gop/cache.go:SendTo", "gop/array.go:sendTo"]}
{"id": "C13", "title": "Cache.Write panics exactly on packets without a suitable header", "statement": "Cache.Write never panics on a packet that went through Demux successfully; it panics for a video (audio) packet whose Header does not implement the video (audio) interface.", "quantifier": "every packet", "why_tests_cant": "depends on dynamic types of all callers", "anchors": ["gop/cache.go:WriteVideo,WriteAudio"]}
{"id": "C14", "title": "Media type set", "statement": "After any sequence of IsVideo/IsAudio/Reset calls ToSlice lists PktVideo iff IsVideo was called since the last Reset, then PktAudio iff IsAudio was, and nothing else.", "quantifier": "every call sequence", "why_tests_cant": "unbounded sequences", "anchors": ["packet/types.go"]}
{"id": "C15", "title": "ADTS header describes the frame", "statement": "After an accepted AudioSpecificConfig with object type 1..4, frequency index <= 12 and channel configuration <= 7, every raw frame of at most 8184 bytes is written as a 7-byte ADTS header followed by the frame; an independent ADTS reader recovers profile = object type - 1, the same frequency index, the same channel configuration, and frame length = 7 + frame size.", "quantifier": "every config in the stated range, every frame content and size <= 8184", "why_tests_cant": "all sizes and contents", "anchors": ["parser/aac/parser.go:specificInfo,addADTSToFrame"]}
{"id": "C16", "title": "ADTS conversion never succeeds with a wrong header", "statement": "Whenever Parse of a raw frame succeeds, the written ADTS header carries the frame's true length and the configured object type and channel configuration.", "quantifier": "every configuration and every frame size", "why_tests_cant": "fails only for sizes above 8184 bytes or object types/channels ADTS cannot carry", "anchors": ["parser/aac/parser.go:addADTSToFrame"]}
{"id": "C17", "title": "Raw AAC before configuration is rejected", "statement": "On a parser that has not been given a sequence header, Parse of a raw frame returns an error and writes nothing.", "quantifier": "every frame, every history without a sequence header of >= 2 bytes", "why_tests_cant": "every history", "anchors": ["parser/aac/parser.go:addADTSToFrame"]}
{"id": "C18", "title": "A rejected AAC configuration has no effect", "statement": "If Parse of a sequence header returns an error, later results of Parse and SampleRate are as if it had not been called.", "quantifier": "every state and sequence header", "why_tests_cant": "needs all states", "anchors": ["parser/aac/parser.go:specificInfo"]}
{"id": "C19", "title": "AAC sample rate", "statement": "SampleRate returns the rate of the MPEG-4 sampling frequency table for the configured index 0..12.", "quantifier": "every index", "why_tests_cant": "finite but state dependent", "anchors": ["parser/aac/parser.go:SampleRate", "parser/aac/type.go:aacRates"]}
{"id": "C20", "title": "MP3 sample rate is the one in the frame header", "statement": "After a successful Parse of an MPEG-1 layer III frame, SampleRate is the rate encoded by the sampling_frequency field (bits 2..3 of the third header byte).", "quantifier": "every frame", "why_tests_cant": "all header bytes", "anchors": ["parser/mp3/parser.go:Parse,SampleRate"]}
{"id": "C21", "title": "AVCC to Annex-B conversion", "statement": "For every list of NAL units of types slice, IDR, SEI, SPS, PPS, AUD, encoded with 4-byte length prefixes, the first longer than one byte (C23), Parse writes an access unit delimiter, then every slice/IDR/SEI unit in order behind a start code, with the parameter sets (those seen in-band before the first IDR, else the cached sequence-header ones) inserted once immediately before the first IDR, and nothing else.", "quantifier": "every non-empty list of NAL units of any length and content whose first unit is longer than one byte (C23 is about that case), every parser history", "why_tests_cant": "unbounded lists", "anchors": ["parser/h264/parser.go:getAnnexbH264"]}
{"id": "C22", "title": "H.264 parser never panics and always terminates", "statement": "Parse on any byte string returns (success or error) without panicking.", "quantifier": "every byte string, every parser state", "why_tests_cant": "all inputs", "anchors": ["parser/h264/parser.go"]}
{"id": "C23", "title": "Length-prefixed data is never mistaken for Annex-B", "statement": "A packet of length-prefixed NAL units is always converted, never passed through unchanged.", "quantifier": "every list of NAL units", "why_tests_cant": "needs a first unit of length exactly 1", "anchors": ["parser/h264/parser.go:isStartAtNaluHeader"]}
{"id": "C24", "title": "A new sequence header replaces the old one", "statement": "After a successful sequence header, the parameter sets inserted before an IDR are those of the most recent sequence header only.", "quantifier": "every history of sequence headers", "why_tests_cant": "history dependent", "anchors": ["parser/h264/parser.go:parseSpecificInfo"]}
{"id": "C25", "title": "Cached parameter sets are exactly the first SPS and PPS of the record", "statement": "For every AVCDecoderConfigurationRecord with one SPS and one PPS the cached parameter sets are start code + SPS + start code + PPS.", "quantifier": "every SPS/PPS content and any trailing extension bytes", "why_tests_cant": "all lengths, trailing bytes", "anchors": ["parser/h264/parser.go:parseSpecificInfo"]}
{"id": "C26", "title": "H.264 conversion is all-or-nothing", "statement": "If Parse returns an error nothing has been written to the output.", "quantifier": "every input", "why_tests_cant": "all error points", "anchors": ["parser/h264/parser.go:getAnnexbH264"]}
{"id": "C27", "title": "Codec dispatch", "statement": "CodecParser.Parse rejects packets without header or media and unknown codecs without output, and otherwise behaves exactly as the codec parser selected by type and codec id, creating it on first use.", "quantifier": "every packet and parser state", "why_tests_cant": "all states", "anchors": ["parser/parser.go:Parse"]}
{"id": "C28", "title": "SampleRate follows the current audio stream", "statement": "CodecParser.SampleRate returns the rate of the most recently parsed audio packet's codec.", "quantifier": "every history", "why_tests_cant": "history dependent", "anchors": ["parser/parser.go:SampleRate"]}
{"id": "C29", "title": "CRC is CRC-32/MPEG-2", "statement": "GenerateCrc32 equals the bit-serial CRC-32/MPEG-2 (polynomial 0x04c11db7, initial value all ones, MSB first, no final xor) on every byte string.", "quantifier": "every byte string", "why_tests_cant": "unbounded inputs; one wrong table entry is hit by few inputs", "anchors": ["container/ts/crc32.go"]}
{"id": "C30", "title": "CRC residue and error detection", "statement": "Appending the CRC big-endian makes the CRC of the whole zero, and any corruption confined to 32 consecutive bits changes the CRC.", "quantifier": "every message, every error burst of at most 32 bits", "why_tests_cant": "unbounded messages and positions", "anchors": ["container/ts/crc32.go:GenerateCrc32"]}
{"id": "C31", "title": "PAT packets", "statement": "Every PAT() returns a 188-byte packet with sync byte, PID 0, payload start, a well-formed section with a valid CRC that maps program 1 to PID 0x1001, 0xff padding, and a continuity counter equal to the number of previous calls mod 16.", "quantifier": "every call history", "why_tests_cant": "depends on the call count", "anchors": ["container/ts/muxer.go:PAT", "container/ts/table/pat.go"]}
{"id": "C32", "title": "PMT packets", "statement": "Every PMT(types) (up to 33 entries) returns a 188-byte packet on PID 0x1001 with a well-formed section (correct section length, valid CRC) listing exactly H.264 on PID 0x100 / AAC on PID 0x101 for the given types in order, continuity counter = call count mod 16.", "quantifier": "every call history and list of types", "why_tests_cant": "depends on history", "anchors": ["container/ts/muxer.go:PMT", "container/ts/table/pmt.go", "container/ts/table/program.go"]}
{"id": "C33", "title": "PCR PID", "statement": "The PCR_PID announced by the PMT for the saved media types is a PID on which the muxer puts PCRs.", "quantifier": "every set of media types", "why_tests_cant": "cross-component property", "anchors": ["container/ts/muxer.go:PMT,Mux"]}
{"id": "C34", "title": "SDT packets", "statement": "Every SDT(desc) with a descriptor of at most 163 bytes is a 188-byte packet on PID 0x11 with correct section and descriptor-loop lengths, the descriptor bytes, a valid CRC and 0xff padding.", "quantifier": "every descriptor content up to 163 bytes", "why_tests_cant": "all contents and lengths", "anchors": ["container/ts/muxer.go:SDT", "container/ts/table/sdt.go"]}
{"id": "C35", "title": "SetTsHeader never panics", "statement": "Saving any metadata and then calling SetTsHeader never panics.", "quantifier": "every Provider/Service string", "why_tests_cant": "needs long strings", "anchors": ["container/ts/mixer.go:SaveMetadata,SetTsHeader", "container/ts/muxer.go:SDT"]}
{"id": "C36", "title": "SDT continuity", "statement": "Consecutive SDT packets have consecutive continuity counters.", "quantifier": "every call history", "why_tests_cant": "history", "anchors": ["container/ts/muxer.go:SDT"]}
{"id": "C37", "title": "TS packetisation round-trips", "statement": "For every audio or non-key video packet, and every key frame whose PES packet is at least 184 bytes, Mux writes whole 188-byte packets on the right PID, payload_unit_start set exactly on the first, whose payloads concatenate to exactly PES header + Media.", "quantifier": "every media content and length, every timestamp, every muxer state", "why_tests_cant": "all lengths (stuffing boundary cases)", "anchors": ["container/ts/muxer.go:Mux", "container/ts/table/pes.go:WriteStuff"]}
{"id": "C38", "title": "Mux never panics", "statement": "Muxer.Mux never panics on an audio or video packet with a header.", "quantifier": "every media length", "why_tests_cant": "fails only for key frames with PES length 176..183", "anchors": ["container/ts/muxer.go:Mux", "container/ts/table/pes.go:WriteStuff"]}
{"id": "C39", "title": "Short key frames keep their payload intact", "statement": "A TS reader recovers PES header + Media of a key frame whose PES packet is shorter than 184 bytes.", "quantifier": "every short key frame", "why_tests_cant": "boundary case", "anchors": ["container/ts/muxer.go:Mux"]}
{"id": "C40", "title": "TS continuity counters", "statement": "Over any sequence of Muxer.Mux calls the continuity counters of the packets written for each PID increase by one modulo 16, starting from the stored counter.", "quantifier": "every sequence of packets", "why_tests_cant": "history", "anchors": ["container/ts/muxer.go:Mux"]}
{"id": "C41", "title": "PCR round-trips", "statement": "The PCR on the first packet of a key frame decodes to dts mod 2^33 (extension 0), and no other packet carries a PCR. That packet, and no other, is marked as a random access point.", "quantifier": "every 64-bit dts", "why_tests_cant": "2^64 values", "anchors": ["container/ts/table/pes.go:WritePcr", "container/ts/muxer.go:Mux"]}
{"id": "C42", "title": "PES timestamps round-trip", "statement": "For 0 <= pts, dts < 2^33 the PES header written by Mux for any frame of C37 decodes to exactly that PTS (and, for video with pts <> dts, that DTS).", "quantifier": "every 33-bit pts and dts", "why_tests_cant": "2^66 pairs", "anchors": ["container/ts/table/pes.go:GeneratePesHeader,encodeTs"]}
{"id": "C43", "title": "Timestamps beyond 2^33 wrap modulo 2^33", "statement": "For any non-negative 63-bit timestamp the encoded PTS is its value modulo 2^33 (as the PCR is).", "quantifier": "every timestamp", "why_tests_cant": "values above 2^33", "anchors": ["container/ts/table/pes.go:encodeTs"]}
{"id": "C44", "title": "PES timestamp prefixes follow H.222.0", "statement": "With both timestamps present the PTS field starts with 0011 and the DTS field with 0001; with PTS only it starts with 0010.", "quantifier": "every timestamp pair", "why_tests_cant": "all pairs", "anchors": ["container/ts/table/pes.go:GeneratePesHeader"]}
{"id": "C45", "title": "PES packet length", "statement": "For every frame of C37 PES_packet_length is the number of bytes after it, or 0 when that exceeds 65535.", "quantifier": "every media length", "why_tests_cant": "all lengths", "anchors": ["container/ts/table/pes.go:GeneratePesHeader"]}
{"id": "C46", "title": "Audio sync stays within tolerance", "statement": "syncAudioTs returns a timestamp within 10 ms (900 ticks) of the input, for every history of calls and every positive sample rate (up to 92160000 Hz, or with fewer than 2^32 calls).", "quantifier": "every sequence of timestamps and sample rates", "why_tests_cant": "history", "anchors": ["container/ts/sync.go:syncAudioTs"]}
{"id": "C47", "title": "Audio timestamps are monotone", "statement": "If the input timestamps are non-decreasing so are the corrected ones.", "quantifier": "every sequence of non-decreasing timestamps", "why_tests_cant": "history; needs a particular jitter pattern", "anchors": ["container/ts/sync.go:syncAudioTs"]}
{"id": "C48", "title": "90 kHz conversion", "statement": "Update sets dts to 90 times the packet time in milliseconds for every 32-bit time.", "quantifier": "every 32-bit time", "why_tests_cant": "only times above 47721858 ms (13.25 h) fail", "anchors": ["container/ts/mixer.go:Update"]}
{"id": "C49", "title": "Stream continuity through the Mixer", "statement": "The packets a Mixer writes to its output have gap-free continuity counters per PID whatever Mixer methods are called.", "quantifier": "every Mixer call history", "why_tests_cant": "history", "anchors": ["container/ts/mixer.go:SaveAVCHeader,SaveAACHeader,Mux"]}
{"id": "C50", "title": "Descriptors are well-formed", "statement": "Every descriptor written by Service/NetworkName with names that fit has a length byte equal to the bytes that follow, and a reader recovers type and names.", "quantifier": "every name of admissible length", "why_tests_cant": "all lengths and contents", "anchors": ["container/ts/table/descriptor.go"]}
{"id": "C51", "title": "Country availability descriptor is well-formed", "statement": "CountryAvailability writes a descriptor whose length byte equals the bytes that follow it.", "quantifier": "every argument", "why_tests_cant": "all arguments", "anchors": ["container/ts/table/descriptor.go:CountryAvailability"]}
{"id": "C52", "title": "AMF0 round-trip", "statement": "Decoding what AMF0 Encode wrote for a value built from nil, booleans, numbers, strings, arrays, objects and typed objects (non-empty keys and type names of at most 65535 bytes) gives back the same value and consumes exactly the encoded bytes, whatever the map iteration order, whatever follows in the stream and whatever the decoder decoded before (zero-length reads at the very end of the input are the subject of C57).", "quantifier": "every finite value of any depth and size, every iteration order, every decoder state, every trailing input", "why_tests_cant": "unbounded recursive values and schedules", "anchors": ["amf/amf0.go:Encode,Decode"]}
{"id": "C53", "title": "AMF0 Encode count", "statement": "The count returned by a successful AMF0 Encode is the number of bytes written.", "quantifier": "every value", "why_tests_cant": "fails for keys longer than 65535 bytes", "anchors": ["amf/amf0.go:Encode,encodeString"]}
{"id": "C54", "title": "AMF0 decoding terminates and consumes input", "statement": "Decode on any byte string terminates, and each successful Decode consumes at least one byte.", "quantifier": "every byte string", "why_tests_cant": "all inputs", "anchors": ["amf/amf0.go:Decode"]}
{"id": "C55", "title": "AMF0 decoding never panics", "statement": "Decode never panics on any byte string.", "quantifier": "every byte string and decoder state", "why_tests_cant": "one reference value per state", "anchors": ["amf/amf0.go:decodeReference"]}
{"id": "C56", "title": "AMF0 dates round-trip", "statement": "Decoding the encoding of a time gives its milliseconds and consumes the whole encoding.", "quantifier": "every time", "why_tests_cant": "all times", "anchors": ["amf/amf0.go:encodeDate,decodeDate"]}
{"id": "C57", "title": "Empty strings decode from any standard reader", "statement": "Decode of an encoded empty string succeeds on bytes.Reader as on bytes.Buffer.", "quantifier": "every reader kind and position", "why_tests_cant": "depends on reader end-of-input behaviour", "anchors": ["amf/helper.go:readBytes", "amf/amf0.go:decodeString"]}
{"id": "C58", "title": "DecodeBatch reports truncated input", "statement": "If the input ends in the middle of a value DecodeBatch returns an error.", "quantifier": "every truncation point of every encoding", "why_tests_cant": "every truncation point", "anchors": ["amf/amf0.go:DecodeBatch"]}
{"id": "C59", "title": "DecodeBatch inverts EncodeBatch", "statement": "DecodeBatch on the bytes of EncodeBatch returns the same list of values (of values as in C52, and with its exception for zero-length reads at the very end of the input).", "quantifier": "every list of values", "why_tests_cant": "unbounded lists", "anchors": ["amf/amf0.go:DecodeBatch,EncodeBatch"]}
{"id": "C60", "title": "AMF0 references denote the referenced value", "statement": "Decoding a reference to an earlier complex value yields that value.", "quantifier": "every earlier value", "why_tests_cant": "depends on the decoder history", "anchors": ["amf/amf0.go:decodeReference,decodeStrictArray,decodeTypedObject"]}
{"id": "C61", "title": "Decoded values can be encoded again", "statement": "Encode terminates on every value returned by Decode.", "quantifier": "every decodable input", "why_tests_cant": "cyclic values", "anchors": ["amf/amf0.go:decodeObject,decodeReference,encodeObject"]}
{"id": "C62", "title": "Decoding does not depend on how the reader splits the input", "statement": "Decode gives the same result for every io.Reader delivering the same bytes.", "quantifier": "every chunking of the input", "why_tests_cant": "every schedule of short reads", "anchors": ["amf/helper.go:readBytes"]}
{"id": "C63", "title": "AMF0 objects with awkward keys", "statement": "Encoding an object either fails or produces bytes that decode to the same object, for every key.", "quantifier": "every key string", "why_tests_cant": "empty and over-long keys", "anchors": ["amf/amf0.go:encodeObject,encodeString"]}
{"id": "C64", "title": "AMF3 variable-length integers", "statement": "Every value below 2^29 is written in 1..4 bytes (shortest form) and read back; larger values are rejected with nothing written; every 1..4 byte sequence read is below 2^29.", "quantifier": "every 32-bit value", "why_tests_cant": "2^32 values", "anchors": ["amf/amf3.go:writeUint29,readUint29"]}
{"id": "C65", "title": "AMF3 round-trip", "statement": "Decoding what AMF3 Encode wrote for a value built from nil, booleans, unsigned integers, doubles, strings, byte arrays, arrays and objects gives back the same value and consumes exactly the encoded bytes, whatever the decoder state.", "quantifier": "every finite value with lengths below 2^28 (2^25 properties), every decoder state and trailing input", "why_tests_cant": "unbounded recursive values", "anchors": ["amf/amf3.go:Encode,Decode"]}
{"id": "C66", "title": "AMF3 signed integers", "statement": "Encode accepts every int in [-2^28, 2^28) and Decode gives it back.", "quantifier": "every such int", "why_tests_cant": "negative values", "anchors": ["amf/amf3.go:Encode,encodeInteger"]}
{"id": "C67", "title": "AMF3 references denote the referenced value", "statement": "Decoding an object reference yields the earlier object or array.", "quantifier": "every decoder history", "why_tests_cant": "history", "anchors": ["amf/amf3.go:decodeObject,decodeArray"]}
{"id": "C68", "title": "AMF3 string references", "statement": "A string reference with index i decodes to the i-th non-empty literal string decoded so far; an index out of range is an error.", "quantifier": "every decoder history", "why_tests_cant": "history", "anchors": ["amf/amf3.go:decodeString"]}
{"id": "C69", "title": "AMF3 dynamic objects", "statement": "Decoding a dynamic object returns its dynamic members and consumes them.", "quantifier": "every dynamic object", "why_tests_cant": "trait flags", "anchors": ["amf/amf3.go:decodeObject"]}
{"id": "C70", "title": "AMF3 truncated byte arrays and XML are rejected", "statement": "Decode returns an error when the input ends before the declared length.", "quantifier": "every truncation point", "why_tests_cant": "every truncation point", "anchors": ["amf/amf3.go:decodeByteArray,decodeXmlDoc"]}
{"id": "C71", "title": "AMF3 dates round-trip", "statement": "Encoding and decoding a time gives the same time to the second, for every time within +-2^53 ms of the epoch.", "quantifier": "every such time", "why_tests_cant": "floating point exactness for all times", "anchors": ["amf/amf3.go:encodeDate,decodeDate"]}
{"id": "C72", "title": "AMF3 decoding terminates", "statement": "Decode on any byte string terminates without panic.", "quantifier": "every byte string", "why_tests_cant": "all inputs", "anchors": ["amf/amf3.go:Decode"]}
{"id": "C73", "title": "Integers survive the float64 conversion", "statement": "AMF0 Encode of any integer of magnitude at most 2^53 decodes to a float64 equal to it.", "quantifier": "every such integer", "why_tests_cant": "2^54 values", "anchors": ["amf/amf0.go:Encode,encodeNumber"]}
{"id": "C74", "title": "RTMP metadata header add/remove", "statement": "For data that starts with an encoded string other than @setDataFrame, DelMetaHeader undoes AddMetaHeader; AddMetaHeader is idempotent.", "quantifier": "every such data", "why_tests_cant": "unbounded data", "anchors": ["amf/metadata.go:AddMetaHeader,DelMetaHeader"]}
{"id": "C75", "title": "DelMetaHeader removes exactly the command", "statement": "If the data starts with an encoded @setDataFrame string, DelMetaHeader returns exactly what follows it, and never panics.", "quantifier": "every encoding of the string (short, long, AMF3) and decoder", "why_tests_cant": "alternative encodings", "anchors": ["amf/metadata.go:DelMetaHeader"]}
{"id": "C76", "title": "AMF0 encode reports writer failures", "statement": "If the writer fails, Encode and its variants return an error.", "quantifier": "every value and failure point", "why_tests_cant": "every failure point", "anchors": ["amf/amf0.go:EncodeWithAMF3,EncodeXmlDocument,Encode"]}
{"id": "C77", "title": "Substring is total", "statement": "Substring never panics and returns the characters with index in [max(from,0), max(to,0)).", "quantifier": "every string and every pair of ints", "why_tests_cant": "all ints", "anchors": ["sips/base.go:Substring"]}
{"id": "C78", "title": "CSeq round-trip", "statement": "Parsing the text of a CSeq whose id contains no space gives back id and method; the text of a parsed string containing a space is that string.", "quantifier": "every id and method", "why_tests_cant": "all strings", "anchors": ["sips/cseq.go"]}
{"id": "C79", "title": "Request URI round-trip", "statement": "Parsing the text of a SIP request (scheme sip/sips/tel, user without '@' and ';', host without ':' and ';', port without ';', parameters with plain keys and values, no spaces or quotes) gives the same fields, whatever the parameter iteration order.", "quantifier": "every such request and iteration order", "why_tests_cant": "all strings, all orders", "anchors": ["sips/request.go:NewSIPRequest,Bytes"]}
{"id": "C80", "title": "Via round-trip", "statement": "Parsing the text of a Via with transport UDP/TCP/TLS/SCTP and plain host, port and parameters gives the same fields.", "quantifier": "every such Via", "why_tests_cant": "all strings, all orders", "anchors": ["sips/via.go"]}
{"id": "C81", "title": "User (From/To/Contact) URI round-trip", "statement": "Parsing the text of a name-less address gives the same scheme, user, host, port and parameters.", "quantifier": "every such address", "why_tests_cant": "all strings, all orders", "anchors": ["sips/user.go"]}
{"id": "C82", "title": "Display names are parsed", "statement": "Parsing \"Name\" <uri> yields Name.", "quantifier": "every display name", "why_tests_cant": "all strings", "anchors": ["sips/user.go:NewSIPUser"]}
{"id": "C83", "title": "Address parsing terminates", "statement": "NewSIPUser, NewSIPRequest, NewSIPVia and NewSIPCseq terminate on every string.", "quantifier": "every string", "why_tests_cant": "a loop iteration may not advance", "anchors": ["sips/user.go:NewSIPUser"]}
{"id": "C84", "title": "Parameter parsing never panics", "statement": "Parsing header parameters never panics.", "quantifier": "every string", "why_tests_cant": "values '' and '\"'", "anchors": ["sips/header_args.go:ParseArgsPairs"]}
{"id": "C85", "title": "Header line parsing never panics", "statement": "ParseHeader never panics on any line in any state.", "quantifier": "every line and state", "why_tests_cant": "folded first header line", "anchors": ["sips/sips.go:ParseHeader"]}
{"id": "C86", "title": "Header lookup is case-insensitive", "statement": "After SetFirstHeader(n, v), GetFirstHeader(n') = v for every n' equal to n ignoring ASCII case, and every other header (of ASCII name, and not stored without any value) is unchanged.", "quantifier": "every pair of names", "why_tests_cant": "all names", "anchors": ["sips/header.go:SetFirstHeader,GetFirstHeader"]}
{"id": "C87", "title": "Compact header names are recognised", "statement": "A header received under its RFC 3261 compact name is found under its long name.", "quantifier": "every compact name", "why_tests_cant": "19 names, but any message", "anchors": ["sips/header.go:GetHeader,GetFirstHeader"]}
{"id": "C88", "title": "Serialized headers parse back", "statement": "Parsing the serialized form of a header map gives back the same map.", "quantifier": "every map and iteration order", "why_tests_cant": "multi-valued and empty headers", "anchors": ["sips/header.go:Bytes", "sips/sips.go:ParseHeader"]}
{"id": "C89", "title": "SIP methods and versions", "statement": "GetSIPMethod inverts String for the 15 methods and is case-insensitive; GetSIPVersion likewise for the 2 versions; every other string is rejected.", "quantifier": "every string", "why_tests_cant": "all strings", "anchors": ["sips/method.go", "sips/version.go"]}
{"id": "C90", "title": "First line round-trip", "statement": "ParseFirstLine on the first line Bytes writes for a request or response gives back method/request/version or version/code; the text Bytes puts after the code is the code's reason phrase in RFC 3261, except that 480 reads No Response and 504 Server Timeout.", "quantifier": "every request/response", "why_tests_cant": "all field values", "anchors": ["sips/request.go:ParseFirstLine", "sips/sips.go:Bytes"]}
{"id": "C91", "title": "Message body round-trip", "statement": "Parsing the serialized form of a message gives back its payload.", "quantifier": "every payload", "why_tests_cant": "all payloads", "anchors": ["sips/sips.go:Parse,fillBody,Bytes"]}
{"id": "C92", "title": "Serialized messages are self-delimiting", "statement": "A serialized message without body ends with the empty line that terminates the header section.", "quantifier": "every message", "why_tests_cant": "messages without payload", "anchors": ["sips/sips.go:Bytes"]}
{"id": "C93", "title": "Parse stays within the message", "statement": "Parse consumes no byte after the message announced by Content-Length.", "quantifier": "every message followed by any data", "why_tests_cant": "pipelined messages", "anchors": ["sips/sips.go:fillBody"]}
{"id": "C94", "title": "Content-Length is the payload length", "statement": "The content-length header of every serialized message equals the payload length in decimal.", "quantifier": "every message and prior header map", "why_tests_cant": "all lengths", "anchors": ["sips/sips.go:Bytes", "sips/header.go:SetContentLength"]}
{"id": "C95", "title": "AMF0 wire format", "statement": "The bytes AMF0 Encode writes are those the AMF0 specification prescribes for the value: markers, big-endian 16/32-bit lengths and counts, IEEE-754 doubles, the 00 00 09 object end.", "quantifier": "every finite value without times, of any depth and size, every iteration order of its maps", "why_tests_cant": "unbounded nesting and lengths; a peer written by someone else reads these bytes", "anchors": ["amf/amf0.go:Encode"]}
{"id": "C96", "title": "AMF3 wire format", "statement": "The bytes AMF3 Encode writes are those the AMF3 specification prescribes for the value (markers, U29 lengths with the inline flag, sealed members in increasing key order), so two maps with the same entries always give the same bytes.", "quantifier": "every finite encodable value and every iteration order of its maps", "why_tests_cant": "Go randomises map iteration; unbounded nesting and lengths", "anchors": ["amf/amf3.go:Encode"]}
{"id": "C97", "title": "AMF3 Encode count and failures", "statement": "AMF3 Encode returns the number of bytes it wrote, and an error whenever any write of the underlying writer failed.", "quantifier": "every value, every writer and every failure point", "why_tests_cant": "all failure schedules", "anchors": ["amf/amf3.go:Encode"]}
{"id": "C98", "title": "AMF3 batches", "statement": "AMF3 DecodeBatch of what EncodeBatch wrote yields the values in order and consumes the whole input.", "quantifier": "every list of encodable values, every prior decoder state", "why_tests_cant": "unbounded lists", "anchors": ["amf/amf3.go:DecodeBatch", "amf/amf3.go:EncodeBatch"]}
{"id": "C99", "title": "FLV header reports writer failures", "statement": "If the underlying writer fails during SetFlvHeader, SetFlvHeader returns that error, and what reached the writer is a prefix of the bytes a successful call would have written.", "quantifier": "every mixer history and every failure point of the writer", "why_tests_cant": "any write call may fail, after any number of bytes", "anchors": ["container/flv/mixer.go:SetFlvHeader"]}
{"id": "C100", "title": "H.264 conversion and writer failures", "statement": "If the underlying writer fails during H.264 Parse, Parse returns that error, and what reached the writer is a prefix of what a successful call would have written.", "quantifier": "every parser history, packet and failure point of the writer", "why_tests_cant": "any write call may fail, after any number of bytes", "anchors": ["parser/h264/parser.go:Parse"]}
{"id": "C101", "title": "AAC conversion and writer failures", "statement": "If the underlying writer fails during AAC Parse of a raw frame, Parse returns that error, and what reached the writer is a prefix of what a successful call would have written.", "quantifier": "every parser history, frame and failure point of the writer", "why_tests_cant": "any write call may fail, after any number of bytes", "anchors": ["parser/aac/parser.go:Parse"]}
{"id": "C102", "title": "TS Mixer and MP3", "statement": "An MP3 frame accepted by the TS Mixer's Mux reaches the output: the PES packet written carries the frame.", "quantifier": "every Mixer history and every MP3 frame whose header is accepted", "why_tests_cant": "the media cache is filled by the codec parsers, so the claim depends on each of them for every input", "anchors": ["container/ts/mixer.go:Mux", "parser/mp3/parser.go:Parse"]}
{"id": "C103", "title": "TS Mixer end to end", "statement": "After an AAC configuration (and none newer), Mux of a raw AAC frame of up to 8184 bytes writes whole TS packets on PID 0x101 whose payloads form one PES packet with stream id 0xc0 carrying a correct ADTS frame; Mux of H.264 units writes TS packets on PID 0x100 whose PES packet (stream id 0xe0) carries exactly their Annex B conversion, with the parameter sets received before an IDR.", "quantifier": "every Mixer history, AAC configuration, frame and list of NAL units", "why_tests_cant": "composes parser state over a history with packetisation of arbitrary lengths", "anchors": ["container/ts/mixer.go:Mux", "container/ts/muxer.go:Mux", "parser/parser.go:Parse"]}
{"id": "C104", "title": "TS Mux and writer failures", "statement": "If the writer fails during Mux, Mux returns that error and what reached the writer is a prefix of the packets a successful call would have written; the packets do not depend on the writer.", "quantifier": "every frame, muxer history and failure point", "why_tests_cant": "any write call may fail, after any number of bytes", "anchors": ["container/ts/muxer.go:Mux"]}
{"id": "C105", "title": "Update then Mux", "statement": "After Update of the Mixer with a video packet time ms and composition time cts (both below 13.2 hours), the PES packet of a video frame decodes to PTS 90*(ms+cts) and DTS 90*ms (absent when cts is 0); the Mixer never encodes a timestamp of 2^33 or more.", "quantifier": "every Mixer history, every pair of times and frame", "why_tests_cant": "arithmetic over all 32-bit times composed with the bit-level encoding", "anchors": ["container/ts/mixer.go:Update", "container/ts/mixer.go:Mux", "container/ts/table/pes.go:encodeTs"]}
{"id": "C106", "title": "SIP Parse never panics", "statement": "Parse and ParseBytes return an error or nil on every input; they never panic.", "quantifier": "every byte sequence, segmentation and buffer size", "why_tests_cant": "a remote peer chooses the bytes; the panics hide behind particular combinations of lines", "anchors": ["sips/sips.go:Parse,ParseBytes,ParseHeader", "sips/header_args.go:ParseArgs"]}
{"id": "C107", "title": "Digest credentials round-trip", "statement": "NewSIPAuth of 'Digest ' (any case) followed by CommaString of a parameter map gives the map back, and so does GetAuthorization of a header set to that text.", "quantifier": "every parameter map in every iteration order, values of printable ASCII including quotes, backslashes, commas and semicolons", "why_tests_cant": "all values and orders", "anchors": ["sips/auth.go:NewSIPAuth", "sips/header_args.go:CommaString,ParseArgsPairs", "sips/header.go:GetAuthorization"]}
{"id": "C108", "title": "CopyFrom copies exactly the named headers", "statement": "After h.CopyFrom(src, names...), GetFirstHeader of every name gives the first value src has for it, and every other entry of h is unchanged.", "quantifier": "every pair of header maps and list of names (repetitions and other cases included)", "why_tests_cant": "unbounded lists and maps", "anchors": ["sips/header.go:CopyFrom"]}
{"id": "C109", "title": "Addresses and request URIs convert into each other", "statement": "ToRequest and ToUser keep scheme, user, host, port and parameters; the text of the converted value parses back to them.", "quantifier": "every plain address", "why_tests_cant": "all field values", "anchors": ["sips/user.go:ToRequest", "sips/request.go:ToUser"]}
{"id": "C110", "title": "Bytes is repeatable", "statement": "Serializing a message a second time gives the same bytes for the same header order and changes nothing but the content-length header and the stored source of the request.", "quantifier": "every message object and iteration order", "why_tests_cant": "all objects", "anchors": ["sips/sips.go:Bytes"]}
{"id": "C111", "title": "Repeated and folded headers", "statement": "For any sequence of header fields, names in any case and values folded over continuation lines, GetHeader returns the unfolded values of a name in order of arrival and GetFirstHeader the first.", "quantifier": "every sequence of fields, every name", "why_tests_cant": "unbounded sequences", "anchors": ["sips/sips.go:ParseHeader", "sips/header.go:GetHeader,GetFirstHeader"]}
{"id": "C112", "title": "Parse does not depend on segmentation", "statement": "Parse gives the same result however the bytes are divided among the reads of the connection.", "quantifier": "every input, every two segmentations, every prior object state", "why_tests_cant": "all segmentations of all inputs", "anchors": ["sips/sips.go:Parse,fillBody"]}
{"id": "C113", "title": "Typed header accessors", "statement": "Each SetX of SIPHeader followed by the matching GetX (From, To, Contact, CSeq, Via, Content-Length, Call-ID) gives the value back; the other setters are visible under their header name in any case.", "quantifier": "every header map and value", "why_tests_cant": "all values and prior maps", "anchors": ["sips/header.go"]}
{"id": "C114", "title": "SIP Parse terminates", "statement": "Parse returns on every finite input.", "quantifier": "every byte sequence, segmentation, buffer size and prior object state", "why_tests_cant": "no bound on the input", "anchors": ["sips/sips.go:Parse,fillBody"]}
{"id": "C115", "title": "Contents and Payload are what was read", "statement": "After a successful Parse, Contents followed by Payload is exactly what was consumed, and Payload is at least Content-Length bytes long unless the input ended.", "quantifier": "every byte sequence, segmentation, buffer size and prior object state", "why_tests_cant": "all inputs", "anchors": ["sips/sips.go:Parse"]}
{"id": "C116", "title": "SIP message round-trip", "statement": "Parsing the serialized form of a message gives back its version, method and URI or code, its headers with the right Content-Length, and the From, To, Contact, CSeq and Via its headers describe.", "quantifier": "every plain message, header order, segmentation and following data", "why_tests_cant": "all messages", "anchors": ["sips/sips.go:Parse,Bytes"]}
{"id": "C117", "title": "MakeRequest and MakeResponse", "statement": "The text of what MakeRequest or MakeResponse builds parses to a message with the given method and URI or code, version 2.0, the given headers and the body's length as Content-Length.", "quantifier": "every method, code, plain URI, header map and body", "why_tests_cant": "all combinations", "anchors": ["sips/easy.go:MakeRequest,MakeResponse"]}
{"id": "C118", "title": "Packets handed over once do not influence each other", "statement": "If every packet is handed to a TS Mixer (Mux, SaveAVCHeader, SaveAACHeader) at most once between two assignments to it, then, for any interleaving of calls on any number of packets and mixers, every call returns and every writer receives exactly what it would if each packet owned its bytes and each mixer stood alone; a struct copy of a packet made before handing it over counts as another packet. A successful Mux sends the transport packets of the media that p.Media shows afterwards.", "quantifier": "every sequence of calls over any number of packets and mixers, every writer behaviour, every growth policy of bytes.Buffer", "why_tests_cant": "The mixer points p.Media into its own buffer; whether that ever leaks into other output depends on the whole call history and on when buffers are reallocated.", "anchors": ["container/ts/mixer.go:Mux,SaveAVCHeader,SaveAACHeader,parse", "parser/parser.go:Parse", "parser/h264/parser.go:getAnnexbH264", "parser/aac/parser.go:addADTSToFrame", "container/ts/muxer.go:Mux"]}
{"id": "C119", "title": "A packet's Media stays what Mux made it", "statement": "After a successful Mux the packet's Media keeps showing the elementary-stream bytes that were sent, until the caller changes the packet. (False: the same mixer's next Mux overwrites it in place. It does hold until that mixer muxes again.)", "quantifier": "every call history, every pair of packets, every growth policy of bytes.Buffer", "why_tests_cant": "The overwriting only shows in packets the caller still holds, and only when the later frame fits the buffer.", "anchors": ["container/ts/mixer.go:Mux,parse", "packet/packet.go:Packet"]}
{"id": "C120", "title": "One packet can be handed to several mixers", "statement": "A packet that has been handed to one TS Mixer can be handed to another, or to the same one again, with the same effect, as happens when a GOP cache gives the same packets to several writers. (False for AAC frames, which get a second ADTS header in front of the first, and for sequence headers, which are left without media so that every later SaveAVCHeader or SaveAACHeader fails; true for H.264 frames muxed again at once.)", "quantifier": "every call history, every pair of mixers, every growth policy of bytes.Buffer", "why_tests_cant": "Unit tests build a fresh packet for each call; the damage is to a packet's second reader.", "anchors": ["container/ts/mixer.go:Mux,SaveAVCHeader,SaveAACHeader,parse", "gop/cache.go:SendTo"]}
{"id": "C121", "title": "AMF3 externalizable objects are read by their handler", "statement": "An object whose class is externalizable is read by the reader for that class (the built-in message and collection classes, or the handler registered with RegisterExternalHandler), and decoding continues after what that reader consumed.", "quantifier": "every class name, handler, object body and history of registrations and decodes on one decoder", "why_tests_cant": "A test registers one handler and decodes one object; that no history ever reaches any handler needs an invariant of the decoder's trait table.", "anchors": ["amf/amf3.go:RegisterExternalHandler,decodeObject,Decode,DecodeBatch", "amf/amf3_external.go:decodeAsyncMessage,decodeAcknowledgeMessage,decodeExternal"]}
{"id": "C122", "title": "SetTsHeader announces what has been saved", "statement": "Whatever calls were made on a TS Mixer, SetTsHeader writes an SDT, a PAT and a PMT with valid sections: the PMT lists H.264 video exactly if SaveAVCHeader was ever called and AAC audio exactly if SaveAACHeader was ever called, its clock is the audio PID if there is audio and the video PID otherwise, and the SDT names the provider and service of the metadata saved last.", "quantifier": "every history of calls on a mixer, every packet and metadata in it", "why_tests_cant": "What is announced depends on all earlier calls, including failed ones.", "anchors": ["container/ts/mixer.go:SetTsHeader,SaveAVCHeader,SaveAACHeader,SaveMetadata,Mux", "container/ts/muxer.go:SDT,PAT,PMT"]}
{"id": "C123", "title": "AMF0 Decode reads every layout the specification allows", "statement": "Decode reads any value laid out as the AMF0 specification allows, not only what Encode writes (long strings of any length, ECMA arrays with any count, repeated member names, undefined, unsupported, dates with time zones, XML, typed objects, nested to any depth): it answers the value the specification gives it, consumes exactly its bytes and leaves earlier decoded values alone. (False for booleans other than 0 and 1, which the specification reads as true.)", "quantifier": "every layout of the grammar, every decoder state and following data", "why_tests_cant": "The grammar is infinite and the library's own encoder never produces most of it.", "anchors": ["amf/amf0.go:Decode,decodeString,decodeObject,decodeEcmaArray,decodeStrictArray,decodeDate,decodeLongString,decodeTypedObject"]}
{"id": "C124", "title": "AMF0 Decode accepts nothing else", "statement": "If Decode succeeds then the bytes it consumed are a layout of the AMF0 specification, whole, and what it answers is that layout's value.", "quantifier": "every byte string, decoder state and following data", "why_tests_cant": "Every malformed input must be rejected; tests try a few.", "anchors": ["amf/amf0.go:Decode,decodeString,decodeObject,decodeEcmaArray,decodeStrictArray,decodeDate,decodeLongString,decodeTypedObject"]}
{"id": "C125", "title": "AMF0 encoders write the specification's layouts", "statement": "Encode, EncodeEcmaArray, EncodeUndefined, EncodeUnsupported, EncodeReference and EncodeXmlDocument write exactly the layout the AMF0 specification gives their argument (marker, count, members, end) and return its length; the layout's value is the argument.", "quantifier": "every argument within the format's limits, every writer that does not fail; for failing writers, that the failure is reported", "why_tests_cant": "Arguments are unbounded trees; the layout must be right for peers written by others.", "anchors": ["amf/amf0.go:Encode,EncodeEcmaArray,EncodeUndefined,EncodeUnsupported,EncodeReference,EncodeXmlDocument"]}
{"id": "C126", "title": "AMF3 Decode reads every layout the specification allows", "statement": "Decode reads any value laid out as the AMF3 specification allows, not only what Encode writes (integers longer than needed, string and trait references into the tables of the messages so far, XML, dates, byte arrays, arrays with associative part, typed and anonymous sealed objects, nested to any depth): it answers the value the specification gives it, consumes exactly its bytes, brings its tables to the specification's and leaves earlier decoded values alone.", "quantifier": "every layout of the grammar without object references, dynamic or externalizable objects and integers from 2^28 on; every decoder state whose tables are those of the grammar, and every following data", "why_tests_cant": "The grammar is infinite and the library's own encoder never produces most of it.", "anchors": ["amf/amf3.go:Decode,decodeString,decodeDate,decodeArray,decodeObject,decodeXmlDoc,decodeByteArray,decodeUint29,readUint29"]}
{"id": "C127", "title": "AMF3 Decode accepts nothing else", "statement": "If Decode succeeds then the bytes it consumed are a layout of the AMF3 specification and its tables are the specification's; the only liberties are the known ones (object references of any kind, the dynamic and externalizable bits ignored, a last XML text or byte array cut short at the end of the input). Where none is taken, the answer is the layout's value.", "quantifier": "every byte string, decoder state and following data", "why_tests_cant": "Every malformed input must be rejected; tests try a few.", "anchors": ["amf/amf3.go:Decode,decodeString,decodeDate,decodeArray,decodeObject,decodeXmlDoc,decodeByteArray,decodeUint29,readUint29"]}
{"id": "C128", "title": "AMF3 encoders write the specification's layouts", "statement": "AMF3 Encode, and AMF0 EncodeWithAMF3 behind the AVM+ marker, write a layout the AMF3 specification gives their argument and return its length; AMF0 Decode reads the latter back. (False for integers from 2^28 to 2^29-2, whose layout the specification reads as negative, and for the negative integers of C66.)", "quantifier": "every argument within the format's limits, every state of the reader's tables, every writer that does not fail", "why_tests_cant": "Arguments are unbounded trees; the layout must be right for peers written by others.", "anchors": ["amf/amf3.go:Encode", "amf/amf0.go:EncodeWithAMF3,Decode"]}
{"id": "C129", "title": "One metadata or media packet can be muxed by many FLV mixers", "statement": "Handing one packet to any number of FLV mixers in turn (a server's viewers) makes each of them write what it would write for a packet of its own, whatever the mixers' states, time stamps and writers, failing ones included. (False for metadata that starts with @setDataFrame twice: Mux strips it from the caller's packet, so every mixer strips one more.)", "quantifier": "every packet, every list of mixers, time stamps and scripted writers", "why_tests_cant": "The effect depends on the mixers before in the list; tests mux a packet once.", "anchors": ["container/flv/mixer.go:Mux", "container/flv/muxer.go:mux", "amf/metadata.go:DelMetaHeader"]}
{"id": "C130", "title": "FLV bodies remuxed to TS carry the same frames and times", "statement": "After the AVC sequence header (and whatever other bodies, before and after), demuxing an FLV H.264 body and handing it to the TS Mixer's Update and Mux writes transport packets on PID 0x100 that form one PES packet: its payload is the Annex B conversion of the body's NAL units with the stream's parameter sets before an IDR, its PTS is 90 times the packet's time plus composition time, its DTS 90 times the packet's time. After an AAC configuration, a raw AAC body comes out on PID 0x101 as one ADTS frame with the configured profile, rate and channels, timed within 10 ms of the packet.", "quantifier": "every history of FLV bodies, every H.264 and AAC body, every time below 13.2 hours", "why_tests_cant": "Demuxer, codec parser, synchroniser and TS muxer are only tested one by one and on single packets.", "anchors": ["container/flv/demuxer.go:Demux", "container/ts/mixer.go:Update", "container/ts/mixer.go:Mux", "parser/parser.go:Parse"]}
{"id": "C131", "title": "Remuxing untrusted bodies panics only on short key frames", "statement": "Whatever FLV bodies arrive, demuxing each and handing it to the TS Mixer (SaveAVCHeader or SaveAACHeader for sequence headers, Update and Mux for frames) returns normally or with an error, whatever the writer does, with one exception: Mux panics exactly when the packet is a key frame whose PES packet would have 176 to 183 bytes.", "quantifier": "every sequence of bodies (any bytes), time stamps and writer behaviours", "why_tests_cant": "The panic needs a frame of one of eight sizes; tests use whole recordings.", "anchors": ["container/flv/demuxer.go:Demux", "container/ts/mixer.go", "container/ts/muxer.go:Mux", "parser/h264/parser.go:Parse"]}
{"id": "C132", "title": "A standard demultiplexer recovers every frame from the TS Mixer's output", "statement": "For any history of Mixer calls without a panic, with a working writer and with key frames of at least 170 bytes, demultiplexing the output by PID and by payload_unit_start finds on the video PID exactly the video frames successfully muxed, and on the audio PID exactly the audio frames, in order, each one PES packet with the media the packet shows after Mux and the Mixer's PTS and DTS.", "quantifier": "every history of Mux, SaveMetadata, SaveAVCHeader, SaveAACHeader, SetTsHeader and Update calls", "why_tests_cant": "Interleavings of frames, tables and failed calls are unbounded; a test reads back one frame.", "anchors": ["container/ts/mixer.go", "container/ts/muxer.go:Mux"]}
{"id": "C133", "title": "A failing source is never taken for the end of the input", "statement": "When the io.Reader fails with an error other than io.EOF, Decode (AMF0 or AMF3) never reports io.EOF and DecodeBatch never returns without an error (AMF0 may also hit the panic of C55), wherever the source fails and however it splits its bytes.", "quantifier": "every input, every splitting into Read calls, every decoder state, every error other than io.EOF", "why_tests_cant": "The source can fail at any byte of any value; tests read from memory.", "anchors": ["amf/helper.go:readBytes", "amf/amf0.go:DecodeBatch", "amf/amf3.go:DecodeBatch"]}
{"id": "C134", "title": "Readers that return their last bytes together with io.EOF decode like any other", "statement": "Decode and DecodeBatch give the same result for an io.Reader that returns its last bytes together with the final error, as the io.Reader contract allows, as for one that returns the error on the next call.", "quantifier": "every input, every splitting into Read calls, every decoder state, every final error", "why_tests_cant": "Test readers never do this, network readers do; the effect depends on the last bytes of the value.", "anchors": ["amf/helper.go:readBytes,readByte", "amf/amf3.go:decodeXmlDoc,decodeByteArray", "amf/amf0.go:DecodeBatch"]}
{"id": "C135", "title": "Exactly which input makes AMF0 decoding panic", "statement": "Decode panics on an input exactly when the input, up to some point, is the beginning of an AMF0 document and goes on there with a reference whose index is the number of reference places taken so far (one per object, ECMA array and strict array, two per typed object, counted over the decoder's life); nothing else makes it panic.", "quantifier": "all byte strings, all decoder states, all readers that deliver the input in one piece; the converse for beginnings without AMF3 values", "why_tests_cant": "The input has to be at a reference at just the wrong moment, at any depth of nesting and after any history; a unit test tries one nesting.", "anchors": ["amf/amf0.go:EnDecAMF0.Decode", "amf/amf0.go:EnDecAMF0.decodeReference"]}
{"id": "C136", "title": "AMF0 documents with references are accepted exactly when the references point back", "statement": "Among inputs without AMF3 values, Decode accepts exactly those that begin with a document of the AMF0 grammar in which every reference has an index below the number of reference places taken before it; it consumes exactly that document and takes its places.", "quantifier": "all byte strings, documents, decoder states and readers delivering the input in one piece", "why_tests_cant": "It must hold for every document, every reference in it and every decoder history.", "anchors": ["amf/amf0.go:EnDecAMF0.Decode", "amf/amf0.go:EnDecAMF0.decodeReference"]}
{"id": "C137", "title": "A decoded AMF0 reference is the value it refers to", "statement": "When a reference denotes an object, array or typed object that is already complete, the decoded value has, in its place, the value of what it refers to, counting one place for each object, ECMA array, strict array and typed object over the decoder's life.", "quantifier": "all documents of the AMF0 grammar, all decoder histories, all bytes that may follow", "why_tests_cant": "Sharing shows at any depth and across values; a unit test has one reference to one object.", "anchors": ["amf/amf0.go:EnDecAMF0.Decode", "amf/amf0.go:EnDecAMF0.decodeReference", "amf/amf0.go:EnDecAMF0.decodeStrictArray", "amf/amf0.go:EnDecAMF0.decodeTypedObject"]}
{"id": "C138", "title": "Messages made from the same header map, request or body do not disturb each other", "statement": "A message made by MakeRequest or MakeResponse, or given a map or body by SetHeader or SetBody, keeps serializing to the text it would have with a copy of its own, as long as the caller changes neither it nor its map, request or body; calling Bytes on messages that share these with it, any number of times, makes no difference.", "quantifier": "every history of calls, every way of sharing, every map iteration order", "why_tests_cant": "Bytes writes to the shared map and request; the order of calls on any number of messages is unbounded.", "anchors": ["sips/easy.go:MakeRequest,MakeResponse", "sips/sips.go:Bytes,SetHeader,SetBody", "sips/header.go:SetContentLength", "sips/request.go:Bytes"]}
{"id": "C139", "title": "Headers set on the map of a message are in the message", "statement": "A header set on the map that was given to MakeRequest or MakeResponse, after that call, is in the message and in its text.", "quantifier": "every map, name, value and number of headers", "why_tests_cant": "It depends on what the map held at the time of the call.", "anchors": ["sips/easy.go:MakeRequest,MakeResponse"]}
{"id": "C140", "title": "A source that fails is never taken for the end of a SIP message", "statement": "If Parse does not return an error, a failure of its source made no difference: any source that delivers the same bytes and goes on, in any way, gives the same object. In particular a message whose source fails before its end is refused, wherever it was cut and whatever blocks the rest came in.", "quantifier": "all messages, cuts, segmentations, errors other than io.EOF (alone or with the last bytes), buffer sizes", "why_tests_cant": "The failure can hit any byte, with any segmentation before it; a unit test parses complete strings.", "anchors": ["sips/sips.go:Parse,fillBody"]}
{"id": "C141", "title": "Parse does not depend on whether io.EOF comes with the last bytes or after them", "statement": "The io.Reader contract allows both; Parse gives the same object and result for both.", "quantifier": "all sources, segmentations and buffer sizes", "why_tests_cant": "bytes.Reader and strings.Reader, which tests use, only do the one.", "anchors": ["sips/sips.go:Parse,fillBody"]}
{"id": "C142", "title": "AMF3 Decode accepts exactly the layouts it documents, and returns their value", "statement": "There is a grammar of AMF3 layouts, with string, trait and object references, such that Decode succeeds on an input if and only if the input begins with a layout of the grammar, and then returns the value of that layout, leaves the input after it and has the tables the layout leaves. The grammar is the AMF3 specification except for the table of object references, the class bits, integers of 2^28 and more, and a last XML text or byte array of which bytes are missing. Everything else is an error. The same for a batch.", "quantifier": "all inputs, all decoder histories, all nestings and references", "why_tests_cant": "The inputs that are accepted are an infinite recursive set over three tables that grow during decoding.", "anchors": ["amf/amf3.go:EnDecAMF3.Decode", "amf/amf3.go:EnDecAMF3.DecodeBatch", "amf/amf3.go:EnDecAMF3.decodeArray", "amf/amf3.go:EnDecAMF3.decodeObject", "amf/amf3.go:EnDecAMF3.decodeByteArray", "amf/amf3.go:EnDecAMF3.decodeXmlDoc", "amf/amf3.go:EnDecAMF3.decodeDate"]}
{"id": "C143", "title": "AMF3 object references denote what the specification says", "statement": "A document with references to earlier dates, XML texts, byte arrays, arrays and objects decodes to the value the AMF3 specification gives it.", "quantifier": "all documents of the AMF3 grammar, all decoder histories", "why_tests_cant": "Which value an index denotes depends on all complex values decoded before, at any depth.", "anchors": ["amf/amf3.go:EnDecAMF3.decodeByteArray", "amf/amf3.go:EnDecAMF3.decodeXmlDoc", "amf/amf3.go:EnDecAMF3.decodeDate", "amf/amf3.go:EnDecAMF3.decodeArray", "amf/amf3.go:EnDecAMF3.decodeObject"]}
{"id": "C144", "title": "Argument maps keep the last operation on every key", "statement": "After any sequence of Set and Del calls on an argument map, Get returns the value the last call on that key left, or the empty text if it was deleted or never set; every other argument is as it was, and deleting an absent argument changes nothing.", "quantifier": "all starting maps, all sequences of calls, all keys", "why_tests_cant": "Holds for every history of calls; a test checks one.", "anchors": ["sips/header_args.go:Args.Set", "sips/header_args.go:Args.Get", "sips/header_args.go:Args.Del"]}
{"id": "C145", "title": "CRLFString can be read back", "statement": "CRLFString writes one line key=value per argument, and ParseArgsPairs of that text gives the same arguments.", "quantifier": "all maps of plain arguments, all iteration orders", "why_tests_cant": "The iteration order of Go maps varies between runs, and the values range over all texts, the empty one included.", "anchors": ["sips/header_args.go:Args.CRLFString", "sips/header_args.go:ParseArgsPairs"]}
{"id": "C146", "title": "A GOP cache is a list of pointers with the kinds their packets had", "statement": "A program that writes packets by pointer, changes them as it likes, and sends the cache, its video frames or its headers to writers of any behaviour, gets the results, and leaves its writers in the state, that it would with a plain list of the pointers written, each with the kind its packet had when written: a replay hands over the pointers of the latest metadata, headers and last N groups, as they are then, and stops at the first failure.", "quantifier": "all programs over a cache, all capacities, all writers, all changes to the packets in between", "why_tests_cant": "Ranges over all histories of writes, sends and packet changes.", "anchors": ["gop/cache.go:Cache.Write,Cache.SendTo,Cache.WriteVideo,Cache.WriteAudio", "gop/gop.go:Gop.Write,Gop.SendTo", "gop/frame.go:Frame.Write,Frame.SendTo", "gop/array.go"]}
{"id": "C147", "title": "FLV subscribers of one cache do not see each other", "statement": "When one GOP cache is replayed to several FLV mixers, each writes the file it would if it alone had been served, although Mux rewrites the payload of the shared packets. (False for metadata that begins with @setDataFrame twice.)", "quantifier": "all histories of the cache, all packets, mixers, writers and orders of serving", "why_tests_cant": "The effect of a subscriber on the next passes through packets shared by pointer, over every history.", "anchors": ["gop/cache.go:Cache.SendTo", "container/flv/mixer.go:Mixer.Mux", "container/flv/muxer.go:Muxer.Mux"]}
{"id": "C148", "title": "TS subscribers of one cache do not see each other", "statement": "When one GOP cache is replayed to several TS mixers, each sends the transport stream it would if it alone had been served. (False: after the first, the key frame holds bytes of the frames that followed it.)", "quantifier": "all histories of the cache, all packets, mixers, writers and orders of serving", "why_tests_cant": "Which bytes a packet shows depends on the mixer's buffer at every later call.", "anchors": ["gop/cache.go:Cache.SendTo", "container/ts/mixer.go:Mixer.Mux,Mixer.parse"]}
{"id": "C149", "title": "The cache replays packets as they were written", "statement": "A replay hands over the packets with the contents they had when they were written. (False when a packet is assigned after it was written: the cache keeps pointers.)", "quantifier": "all programs over a cache", "why_tests_cant": "Any assignment between any write and any replay can break it.", "anchors": ["gop/cache.go:Cache.Write,Cache.SendTo", "gop/array.go:write"]}
{"id": "C150", "title": "SendTo on a cache that is being written to has a defined effect", "statement": "A writer that calls Write on the cache it is being served from, any number of times during any call, sees this: SendTo visits the group numbers modulo N, from the oldest group kept, as many as there are when each turn comes; of each it takes the packets of whatever group has that number at that moment, up to the length that the group had when its turn came, and panics if the group has become shorter.", "quantifier": "all programs over a cache, all capacities, all writers that write to the cache during any of their calls", "why_tests_cant": "Every call of the writer is a point at which any writes can happen.", "anchors": ["gop/cache.go:Cache.SendTo", "gop/gop.go:Gop.SendTo", "gop/array.go:sendTo", "gop/array.go:reset"]}
{"id": "C151", "title": "A cache can be replayed while packets are written to it", "statement": "SendTo does not panic and delivers a decodable replay, although the publisher writes to the cache between its calls of the writer. (False: with the cache full, a key frame written while the oldest group is being delivered makes SendTo panic.)", "quantifier": "all histories, all writers, all points in a replay at which packets are written", "why_tests_cant": "The writes can come between any two packets of any replay.", "anchors": ["gop/cache.go:Cache.SendTo", "gop/gop.go:Gop.SendTo", "gop/array.go:sendTo"]}
{"id": "C152", "title": "The first line of a SIP message, exactly", "statement": "ParseFirstLine on any line and any object: which lines are accepted and with what method, version, request URI, status and reason; what error or panic the others give; and what the object holds afterwards in every case.", "quantifier": "all byte strings and all message objects", "why_tests_cant": "Which of infinitely many lines are accepted, and what a refused one leaves behind, is not settled by examples.", "anchors": ["sips/request.go:SIP.ParseFirstLine", "sips/method.go:GetSIPMethod", "sips/version.go:GetSIPVersion"]}
{"id": "C153", "title": "Parsing into an object used before", "statement": "Parsing a message into an object that has parsed another gives what a new object gives. (False: an object that was a response stays one, and the earlier message's headers come first.)", "quantifier": "all messages and all states of the object", "why_tests_cant": "The result depends on everything parsed before.", "anchors": ["sips/sips.go:SIP.Parse,SIP.SetHeader", "sips/request.go:SIP.ParseFirstLine", "sips/header.go:SIPHeader"]}
{"id": "C154", "title": "Request URIs, addresses and Via values, exactly", "statement": "NewSIPRequest, NewSIPUser and NewSIPVia on any text: scheme, user, host, port, transport and parameters are exactly those the text has by a short grammar (the first scheme, then up to the first at sign, colon, semicolon, and so on); they panic exactly when the parameters do.", "quantifier": "all byte strings", "why_tests_cant": "A hand-written scanner meets every possible text.", "anchors": ["sips/request.go:NewSIPRequest", "sips/user.go:NewSIPUser", "sips/via.go:NewSIPVia"]}
{"id": "C155", "title": "Parameter lists, exactly", "statement": "ParseArgsPairs on any ASCII text: the parameters are those of its elements, separated by commas, semicolons and line feeds outside quotes, with escapes resolved, blanks trimmed and the last value of a key winning; it panics exactly when an element ends at its equals sign or one quote after it.", "quantifier": "all ASCII texts", "why_tests_cant": "Quotes, escapes, separators and blanks combine without bound.", "anchors": ["sips/header_args.go:ParseArgsPairs,Args.ParseList,Args.Get"]}
{"id": "C156", "title": "Parsing a SIP message, exactly", "statement": "Parse on any input, delivered in blocks of any sizes through a buffer of any size, into an object without headers: which inputs are accepted, refused and make it panic; and for the accepted ones every field of the object, the contents, the payload and what is left in the reader.", "quantifier": "all inputs, all divisions into blocks, all buffer sizes, all objects without headers", "why_tests_cant": "Every input is one that a peer can send.", "anchors": ["sips/sips.go:SIP.Parse,SIP.ParseHeader,SIP.fillHeader,SIP.fillBody", "sips/request.go:SIP.ParseFirstLine", "sips/header.go:SIPHeader.GetFirstHeader,SIPHeader.GetContentLength", "sips/cseq.go:NewSIPCseq"]}
{"id": "C157", "title": "A PES header object can be used again", "statement": "GeneratePesHeader on a PES header object that has been used before makes the header that a new object would make: it gives the time stamps of this call only, the length it returns covers the header, and types other than audio and video change nothing and return 0.", "quantifier": "all histories of calls on one object; all types, lengths and times", "why_tests_cant": "The object keeps what earlier calls wrote, so what a call makes depends on the whole history.", "anchors": ["container/ts/table/pes.go:NewPes,Pes.GeneratePesHeader,Pes.encodeTs"]}
{"id": "C158", "title": "Stuffing fields and clock references are written where and as long as asked", "statement": "WriteStuff writes an adaptation field of exactly the number of bytes asked for, all of them stuffing, and leaves the rest of the slice alone (0 stands for 256); WritePcr writes six bytes that a receiver reads as the 33-bit clock given with extension 0 and leaves the rest alone; either panics if and only if the slice is too short.", "quantifier": "all slices, all byte lengths, all 64-bit clocks", "why_tests_cant": "One wrong byte is one packet that a receiver misreads for one length among 256 or one clock among 2^33.", "anchors": ["container/ts/table/pes.go:Pes.WriteStuff,Pes.WritePcr"]}
{"id": "C159", "title": "Decoding asks for memory in proportion to its input", "statement": "The buffers that one Decode call makes are no larger in total than a constant times the number of bytes the call reads.", "quantifier": "all inputs, all readers, successful and failing calls", "why_tests_cant": "The sizes come from numbers anywhere in the input, at any depth.", "anchors": ["amf/amf0.go:EnDecAMF0.Decode,EnDecAMF0.decodeString,EnDecAMF0.decodeLongString", "amf/amf3.go:EnDecAMF3.Decode,EnDecAMF3.decodeArray,EnDecAMF3.decodeObject,EnDecAMF3.decodeByteArray,EnDecAMF3.decodeXmlDoc", "amf/helper.go:readBytes"]}
{"id": "C160", "title": "float32 values keep their value", "statement": "Encode of a float32 followed by Decode gives a float64 that is the same number: the same sign and exactly the same value, infinity for infinity and NaN for NaN, in AMF0 and in AMF3.", "quantifier": "all 2^32 float32 bit patterns", "why_tests_cant": "Subnormal numbers change their representation; a test tries a few numbers.", "anchors": ["amf/amf0.go:EnDecAMF0.Encode,EnDecAMF0.encodeNumber", "amf/amf3.go:EnDecAMF3.Encode,EnDecAMF3.encodeDouble"]}
{"id": "C161", "title": "The times of every frame of a TS Mixer follow from the calls alone", "statement": "After any sequence of calls on a new TS Mixer (in any order, failing or not, on any writers), the times that the next Mux stamps on a frame are those of a small clock driven by the calls: zero before any Update; after a video Update, the DTS is 90 times the milliseconds given modulo 2^32 and the PTS adds 90 times the composition offset modulo 2^32; after an audio Update the two are equal and follow the 1024-sample time line of the sampling rate known from the packets given so far, restarting at the given time when the two differ by more than 900 ticks; an audio Update before any audio packet, and an Update with another packet type, change the DTS only. The frame is found with these times when the bytes written are demultiplexed.", "quantifier": "every sequence of calls on one Mixer with audio bodies made of bytes, and every packet muxed next", "why_tests_cant": "the clock depends on the whole history of calls", "anchors": ["container/ts/mixer.go:Mux", "container/ts/mixer.go:Update", "container/ts/mixer.go:NewMixer", "container/ts/sync.go:syncAudioTs"]}
{"id": "C162", "title": "Which chunkings of the input AMF0 decoding survives", "statement": "Decoding an AMF0 document from a reader that returns it in chunks succeeds exactly when no chunk ends inside a string, a name or a date's time zone; the value, the decoder and the remaining input are then those of the same bytes in one piece, and every other chunking is an error.", "quantifier": "every document without AMF3 values whose references denote earlier values, every chunking into non-empty chunks, every trailing input, every decoder state", "why_tests_cant": "every schedule of short reads", "anchors": ["amf/helper.go:readBytes", "amf/amf0.go:Decode"]}
{"id": "C163", "title": "AMF0 Decode on every input, AMF3 values included", "statement": "For every input, every state of the reference tables and every way the source ends, EnDecAMF0.Decode (1) returns a value and nil exactly when the input begins with an AMF0 document, each AMF3 value announced by marker 0x11 being an AMF3 layout in the library's reading with the AMF3 string, class and object tables running through all of them; it then leaves exactly the rest of the input and the tables that the document leaves; only an AMF3 XML text or byte array at the very end may have missing bytes, read as zeros; (2) panics exactly when the input, up to some point, is the beginning of such a document and goes on there with a reference to the very next place of the AMF0 table; (3) returns an error on every other input.", "quantifier": "All byte strings, all states of the decoder's tables that a document can leave, all in-memory sources (any final error, with or without io.EOF on empty reads).", "why_tests_cant": "The claim is about every input: tests can sample accepted inputs but cannot show that nothing else is accepted and nothing else panics.", "anchors": ["amf/amf0.go:Decode", "amf/amf0.go:decodeReference", "amf/amf3.go:Decode"]}
{"id": "C164", "title": "The value AMF0 Decode gives, references and AMF3 values included", "statement": "An input that begins with an AMF0 document (AMF3 values announced by marker 0x11 included) is decoded as the value the document has: members by name with the last of two of the same name winning, AMF3 values in the library's reading with their tables running through the document, a reference as the value that took its place in the table - except that a strict array is in the table as an empty array and a typed object as an empty object without a name. The tables left behind hold exactly these values. Every document has such a value unless a reference in it denotes a map that contains it.", "quantifier": "All AMF0 documents with any nesting, any references to earlier places and any AMF3 values; all decoder states whose table values are known; all in-memory sources.", "why_tests_cant": "References and the AMF3 tables make the value of one part of a document depend on everything before it; tests fix a few combinations only.", "anchors": ["amf/amf0.go:Decode", "amf/amf0.go:decodeReference", "amf/amf0.go:decodeObject", "amf/amf3.go:Decode"]}
{"id": "C165", "title": "Exactly which decoded AMF0 values are finite", "statement": "When the decoder's table holds finite values and no object of the input repeats a name, the value EnDecAMF0.Decode returns is a finite tree exactly if no reference in the document denotes an object, ECMA array or body of a typed object that contains it; otherwise the returned map is cyclic, so walking it (printing, encoding, comparing) never ends. After a document without such references the table holds finite values again.", "quantifier": "All accepted inputs without repeated names, with any nesting, references and AMF3 values; all decoder states with finite table values.", "why_tests_cant": "Whether a value is cyclic depends on the whole path from the root to the reference, over unboundedly many documents.", "anchors": ["amf/amf0.go:Decode", "amf/amf0.go:decodeReference", "amf/amf0.go:decodeObject"]}
{"id": "C166", "title": "What AMF decoding returns when the input arrives in several Read calls", "statement": "A Decode (AMF3, or AMF0 with AMF3 values in it) that succeeds on a source delivering its input in chunks returns the value, decoder state and remaining input of the call on one in-memory piece consisting of those chunks, except that zero bytes may have been inserted behind some chunks; if the marker bytes of XML documents and byte arrays do not occur in the input, nothing is inserted. Every AMF3 byte array or XML document cut between two Read calls does come back with zeros for the bytes after the cut and no error, and those bytes are then read as the next value; a string cut that way is an error.", "quantifier": "All inputs and all ways of cutting them into Read results (with or without an error along with the last bytes), all decoder states.", "why_tests_cant": "The cuts depend on the network and are not reproducible; the wrong content comes without an error.", "anchors": ["amf/amf3.go:Decode", "amf/amf3.go:decodeByteArray", "amf/amf3.go:decodeXmlDoc", "amf/helper.go:readBytes", "amf/amf0.go:Decode"]}
{"id": "C167", "title": "Every viewer of a live FLV relay gets the last groups of what was published", "statement": "A program passes a publisher's packets through Demux and, where that succeeds, writes them to one GOP cache, and serves viewers who join at any time by SendTo through an FLV mixer each. The viewer's output is then the FLV tags, at the packets' own times, of the latest metadata (without @setDataFrame), the latest video configuration, the latest AAC configuration and the last n groups of pictures, as determined from the published bodies alone; nothing else and nothing later. Other viewers, served before or after, with or without errors, make no difference although all share the same packets. If the viewer's writer fails they get a beginning of that output and SendTo returns the error.", "quantifier": "All sequences of publications and joins, all bodies (also ones Demux rejects) that fit in a tag and, for metadata, start with at most one @setDataFrame and a name; all cache capacities; all writers.", "why_tests_cant": "Viewers can join at any moment in any stream, and Mux assigns to packets that the cache and all viewers share.", "anchors": ["container/flv/demuxer.go:Demux", "gop/cache.go:Write", "gop/cache.go:SendTo", "container/flv/mixer.go:Mux", "container/flv/muxer.go:Mux"]}
{"id": "C168", "title": "A TS recording of a live FLV stream contains every frame, in order, with its time", "statement": "A program feeds a publisher's bodies to a new TS Mixer: it demuxes each, saves configurations, and sends access units and AAC frames with their time stamps, with SetTsHeader at any points. If the writer never fails, every call succeeds, and a TS demultiplexer that reads the output finds on the video PID exactly the access units of the stream in order (access unit delimiter, parameter sets before IDR units, Annex B, exact presentation and decoding times) and on the audio PID exactly the AAC frames in order (ADTS header with the configuration in force, times within 10 ms).", "quantifier": "All streams of any length with any number of H.264 and AAC configurations, each before the frames it is for (the parameter sets of repeated H.264 configurations accumulate, C24); any other tag types; all interleavings; all times below 47721859 ms; key frames whose byte stream has at least 170 bytes; all writers that do not fail.", "why_tests_cant": "The result depends on the whole history: configurations remembered, continuity counters, interleaving of two PIDs and tables.", "anchors": ["container/ts/mixer.go:SaveAVCHeader", "container/ts/mixer.go:SaveAACHeader", "container/ts/mixer.go:Update", "container/ts/mixer.go:Mux", "container/ts/mixer.go:SetTsHeader", "container/flv/demuxer.go:Demux"]}
{"id": "C169", "title": "A TS viewer can join an FLV relay", "statement": "A program serves, from the one GOP cache that FLV viewers are served from, a viewer who is to get MPEG-TS: for each packet SendTo hands out it copies the packet, demuxes the copy and makes the calls of a recorder. Whatever was published before and however many FLV viewers (whose mixers assign to the shared packets) joined, SendTo succeeds and a demultiplexer finds in the output exactly the access units and AAC frames of the last n groups of what was published, with their times, as determined from the published bodies alone.", "quantifier": "All sequences of publications and FLV joins, all cache capacities, all publications for which the last n groups form a stream as in C168; all writers that do not fail.", "why_tests_cant": "FLV viewers assign to packets that the cache still holds; whether this hurts a viewer with another container depends on the whole history.", "anchors": ["gop/cache.go:Write", "gop/cache.go:SendTo", "container/flv/mixer.go:Mux", "container/flv/demuxer.go:Demux", "container/ts/mixer.go:Update", "container/ts/mixer.go:Mux"]}
{"id": "C170", "title": "What AMF0 decoding says about a document that is cut short, exactly", "statement": "Decode of a proper, possibly empty, beginning of an AMF0 document fails: with io.EOF exactly when the input stops between two of the pieces the value is made of, with io.ErrUnexpectedEOF exactly when it stops inside a marker field, length, count or number, and with another error exactly when it stops inside a text or a time zone. DecodeBatch of complete documents followed by a non-empty beginning of another returns the values of the complete ones, reports no error exactly in the first case, and the same errors as Decode in the other two.", "quantifier": "All documents of the AMF0 grammar without embedded AMF3 (every nesting, references that resolve), all cut points, all states of the decoder, all numbers of complete documents before, all ways in which the bytes arrive whole before io.EOF.", "why_tests_cant": "Every cut point of every document: which error comes out depends on which of the reads is the one that runs out.", "anchors": ["amf/amf0.go:Decode", "amf/amf0.go:DecodeBatch", "amf/amf0.go:decodeObject", "amf/amf0.go:decodeString", "amf/amf0.go:decodeStrictArray"]}
{"id": "C171", "title": "Values decoded earlier are not changed by later Decode calls", "statement": "After any further calls of Decode and DecodeBatch on the same decoder, for AMF0 and AMF3, from any readers, successful, failing or panicking, every map that had been handed out holds exactly the entries it held, and every value reads as it did.", "quantifier": "All decoder states, all values, all lists of later calls and all readers.", "why_tests_cant": "The decoder keeps every object it has decoded in its reference tables and hands the same object out again; whether a later call writes into one is a question about all later inputs.", "anchors": ["amf/amf0.go:Decode", "amf/amf0.go:DecodeBatch", "amf/amf3.go:Decode", "amf/amf3.go:DecodeBatch"]}
{"id": "C172", "title": "What AMF3 decoding says about a document that is cut short, exactly", "statement": "Decode of a proper, possibly empty, beginning of an AMF3 document gives: io.EOF if the input stops between two of the pieces the value is made of (but not before the eight bytes of a date), or inside the content of a byte array or XML document that something follows; io.ErrUnexpectedEOF inside a double; another error inside a string and before or inside the eight bytes of a date; and success, with zeros for the missing bytes, inside the content of a byte array or XML document at the very end of the document. These are all cases. DecodeBatch of complete documents followed by such a beginning returns the values of the complete ones, without an error in the first case, with the same errors in the middle ones, and with the zero-filled value as one more value and no error in the last.", "quantifier": "All documents of the AMF3 grammar without object references, dynamic or externalizable objects, and integers below 2^28 (every nesting, string and trait references), all cut points, all states of the decoder's tables, all numbers of complete documents before.", "why_tests_cant": "Every cut point of every document: which error comes out, if any, depends on which read is the one that runs out.", "anchors": ["amf/amf3.go:Decode", "amf/amf3.go:DecodeBatch", "amf/amf3.go:decodeByteArray", "amf/amf3.go:decodeXmlDoc", "amf/amf3.go:decodeString", "amf/amf3.go:decodeDate"]}
{"id": "C173", "title": "What H.264 conversion writes, exactly", "statement": "For every stream of packets given to one H.264 parser, each call writes and returns exactly this. A sequence header that can be read adds its parameter sets (and what follows the first PPS) to those remembered, and writes nothing; any other is an error and changes nothing. Media that begins with a start code is copied. Other media of at least four bytes is split into its length-prefixed units of supported types: they are written as a byte stream behind a delimiter, with the packet's own parameter sets, or else all those remembered, before the first IDR; the call succeeds if the packet ends with the last unit and fails otherwise, with the units before the bad one written. Shorter media is an error and writes nothing.", "quantifier": "All streams of packets, all sequences of headers and media, good and bad, all unit lists and truncations; writers that do not fail (C100 for others).", "why_tests_cant": "What a packet becomes depends on every sequence header before it and on every unit in it.", "anchors": ["parser/h264/parser.go:Parse", "parser/h264/parser.go:parseSpecificInfo", "parser/h264/parser.go:getAnnexbH264"]}
{"id": "C174", "title": "What a CodecParser writes and reports, exactly", "statement": "For every stream of video and audio packets given to one CodecParser in any order, each call writes and returns exactly this. AVC media is converted as C173 says, from the parameter sets of the AVC packets alone. An AAC configuration of at least two bytes is remembered (and reported as an error if its rate index is 15), a non-empty AAC frame after one is written behind a seven-byte ADTS header built from the last configuration, and any other AAC packet is an error that writes nothing. An MP3 packet whose rate can be read is remembered, any other is an error and keeps the rate before it (44100 Hz if there was none). A packet without header or media, or for none of the three, is an error, and one whose header lacks the interface for its type panics; neither changes anything. Afterwards SampleRate reports the rate of the last AAC configuration once any AAC packet was seen (96000 Hz before a configuration, 44100 Hz if its rate index is reserved), else the last MP3 rate, else an error.", "quantifier": "All streams of packets of all kinds, interleaved in all ways, with media of all lengths and contents; writers that do not fail (C100 for others).", "why_tests_cant": "What a packet becomes depends on all configurations before it, and the three parsers share one object.", "anchors": ["parser/parser.go:Parse", "parser/parser.go:SampleRate", "parser/aac/parser.go:Parse", "parser/h264/parser.go:Parse", "parser/mp3/parser.go:Parse"]}
{"id": "C175", "title": "A changed program map has a new version number", "statement": "When SetTsHeader writes a program map (PMT) that lists other streams than the one before, its version number differs, so that a player that has read the first one notices. (False: the version number is always 0. A stream configured after the first SetTsHeader is never played by a player that ignores versions it has seen, however often SetTsHeader is called afterwards.)", "quantifier": "All histories of Mixer calls before, between and after the SetTsHeader calls, all packets.", "why_tests_cant": "The two tables are correct when looked at alone; only a player that has seen both is misled.", "anchors": ["container/ts/mixer.go:SetTsHeader", "container/ts/mixer.go:SaveAACHeader", "container/ts/mixer.go:SaveAVCHeader", "container/ts/muxer.go:PMT", "container/ts/muxer.go:PAT"]}
{"id": "C176", "title": "What a player that starts from the program tables plays, exactly", "statement": "A player that reads the output of a new TS Mixer from the start, finds the PMT through the PAT and the streams through the PMT, ignores table versions it has seen and drops packets of unannounced streams, plays exactly this: H.264 if an AVC header, and AAC if an AAC header, was saved before the first SetTsHeader, and of each exactly the frames successfully muxed after that SetTsHeader, in order, with media and times. So a recording of a live stream in which the configurations come first and SetTsHeader is called before the first frame is played completely.", "quantifier": "All histories of Mixer calls without a panic on a working writer, with key frames of at least 170 bytes after the first SetTsHeader.", "why_tests_cant": "It depends on the order of all calls and on every packet written.", "anchors": ["container/ts/mixer.go:Mux", "container/ts/mixer.go:SetTsHeader", "container/ts/muxer.go:Mux", "container/ts/muxer.go:PMT", "container/ts/muxer.go:PAT"]}
{"id": "C177", "title": "A clock reference at least every 100 ms", "statement": "The output of a TS Mixer carries clock references (PCR) at most 100 ms apart, as the standard demands, so that a receiver can follow the clock. (False: there is exactly one for every key frame, on the video PID, with that frame's decoding time, and none for anything else; the distance is that between key frames. These packets, and no others, are marked as random access points.)", "quantifier": "All histories of Mixer calls without a panic on a working writer.", "why_tests_cant": "It is about the distance between packets written by different calls, for streams of any length.", "anchors": ["container/ts/mixer.go:Mux", "container/ts/mixer.go:Update", "container/ts/muxer.go:Mux"]}
{"id": "C178", "title": "A frame has arrived completely when it is to be decoded", "statement": "By the clock references of the stream itself, the last packet of a frame arrives no later than the frame's decoding time. (False for every key frame of more than one packet: the clock reference in its first packet is already its decoding time.)", "quantifier": "All reachable muxers, all key frames whose PES packet has at least 184 bytes, all times below 2^33.", "why_tests_cant": "It relates the time written into one packet to the arrival of the following ones, for frames of every size.", "anchors": ["container/ts/muxer.go:Mux", "container/ts/table/pes.go:WritePcr"]}
{"id": "C179", "title": "What a TS Mixer sends and answers follows from the history of calls", "statement": "For every history of calls of the TS Mixer (Mux, Update, SetTsHeader, SaveMetadata, SaveAVCHeader, SaveAACHeader, in any order and repeated in any way), the answer to every call and the frames sent are determined by the calls made before: a Mux sends the frame that the configurations seen so far give for this packet, with the times the last Update set, if the codec accepts the packet; it panics exactly if that frame is a key frame that cannot be sent; SetTsHeader fails exactly if the names in the last metadata are too long; Update fails exactly for a sound packet before a configuration with a sample rate. If no call panics, a demultiplexer finds exactly these frames in the output.", "quantifier": "All histories of calls with byte media and metadata with distinct keys, all writers that do not fail; for the last sentence, key frames of at least 170 bytes.", "why_tests_cant": "Each answer depends on all calls before.", "anchors": ["container/ts/mixer.go:Mux", "container/ts/mixer.go:Update", "container/ts/mixer.go:SetTsHeader", "container/ts/mixer.go:SaveMetadata", "container/ts/mixer.go:SaveAVCHeader", "container/ts/mixer.go:SaveAACHeader"]}
{"id": "C180", "title": "What AddMetaHeader and DelMetaHeader return, for every input", "statement": "With a new AMF0 decoder, DelMetaHeader and AddMetaHeader succeed exactly if the data begins with a text (AMF0 string, long string or XML document, or an AMF3 string or XML after the switch). DelMetaHeader removes the first 16 bytes if the text is @setDataFrame and returns the data as it is otherwise; AddMetaHeader puts the AMF0 string @setDataFrame in front unless the text is that. They panic exactly where AMF0 decoding panics, and fail for everything else.", "quantifier": "All byte strings.", "why_tests_cant": "It is a statement about all inputs, malformed ones and those with embedded AMF3 values included.", "anchors": ["amf/metadata.go:AddMetaHeader", "amf/metadata.go:DelMetaHeader", "amf/amf0.go:Decode"]}
{"id": "C181", "title": "What AMF0 Encode writes and returns, for every value", "statement": "On a writer that does not fail, Encode writes exactly the bytes of a description that covers every value, also those outside the limits of the format (names of more than 65535 bytes, dates, values of types that have no encoding, at any depth). It fails exactly if a value of such a type is inside, with everything before it written; the count it returns is the number of bytes written less 65536 for every 65536 bytes of a name.", "quantifier": "All values of any depth and size, all writers that do not fail.", "why_tests_cant": "It quantifies over all nested values, including those the format has no room for.", "anchors": ["amf/amf0.go:Encode", "amf/amf0.go:encodeObject", "amf/amf0.go:encodeStrictArray", "amf/amf0.go:encodeString", "amf/amf0.go:encodeTypeObject", "amf/amf0.go:encodeDate"]}
{"id": "C182", "title": "What an FLV Mixer writes and answers, from the history of calls alone", "statement": "On a writer that does not fail, every call on a new FLV Mixer is described by the calls made before it, whatever they are. Mux of sound and video writes one tag with the packet's data and time; of metadata the data without @setDataFrame; it is refused, or panics, exactly if the metadata do not begin with a text (or begin with a reference that AMF decoding panics on), and for other packet types refused, and then writes nothing. SetFlvHeader writes the file header, with a flag for video and sound if the configuration was ever saved, even if that failed, and then for metadata, video and sound configuration the tag of the last such call, none if that call failed. SaveMetadata fails exactly if a value has no encoding. Tags with less than 16 MB of data are read back by an FLV reader.", "quantifier": "All histories of calls without SetWriter, failing and panicking calls included; all packets, values and times.", "why_tests_cant": "It is a statement about all histories of calls, including those after refusals and panics.", "anchors": ["container/flv/mixer.go:SaveMetadata", "container/flv/mixer.go:SaveAVCHeader", "container/flv/mixer.go:SaveAACHeader", "container/flv/mixer.go:SetFlvHeader", "container/flv/mixer.go:Mux", "container/flv/muxer.go:mux"]}
{"id": "C183", "title": "What AMF3 Encode writes and returns, for every value", "statement": "On a writer that does not fail, AMF3 Encode writes exactly the bytes of a description that covers every Go value, and returns their number, or fails after a described beginning. It fails exactly if a value inside is of a type without encoding, a negative int above -2^29, or has a length of 2^28 or more (2^25 members or more), where lengths are taken modulo 2^31 (modulo 2^28). EncodeBatch writes the values up to the first that fails, and AMF0's EncodeWithAMF3 the same behind its marker.", "quantifier": "All values of any depth and size with distinct keys in every map, all writers that do not fail.", "why_tests_cant": "It quantifies over all nested values, including those the format has no room for.", "anchors": ["amf/amf3.go:EnDecAMF3.Encode", "amf/amf3.go:EnDecAMF3.EncodeBatch", "amf/amf3.go:EnDecAMF3.encodeObject", "amf/amf3.go:EnDecAMF3.encodeArray", "amf/amf3.go:EnDecAMF3.encodeInteger", "amf/amf3.go:EnDecAMF3.encodeUtf8", "amf/amf3.go:EnDecAMF3.writeUint29", "amf/amf0.go:EncodeWithAMF3"]}
{"id": "C184", "title": "What AMF3 decoding makes of a document that arrives in chunks", "statement": "Decode of an AMF3 document from a reader that returns it in chunks: if no chunk ends inside a string or inside the content of a byte array or XML document, the value, the decoder and the remaining input are those of the same bytes in one piece. If the first chunk that does ends inside a string, the call is an error. If it ends inside content, the call is the one on the input with zeros put in for the rest of the content, decoding going on with the next chunk; if that content is the last of the document, the call succeeds with a value that has zeros in it and leaves the rest of the content in the input. These are all cases.", "quantifier": "All documents of the AMF3 grammar without object references, dynamic or externalizable objects, and integers below 2^28; all chunkings into non-empty chunks; all trailing input; all decoder states.", "why_tests_cant": "Every schedule of short reads, and silent corruption that no error reveals.", "anchors": ["amf/helper.go:readBytes", "amf/amf3.go:Decode", "amf/amf3.go:decodeByteArray", "amf/amf3.go:decodeXmlDoc", "amf/amf3.go:decodeString"]}
{"id": "C185", "title": "What Parse does with an object of any history, exactly", "statement": "Parse of any input, in blocks of any sizes, into an object with any headers and any earlier messages: which inputs are accepted, refused and panic, and the object after an accepted one. A field is added behind the values already stored under its name; a continuation line is added to the last value of the latest name, even when that is of an earlier message, and panics when it has no value; Content-Length, From, To, Contact, CSeq and Via are read from the first values stored, old ones included; without a map nothing is accepted. Two messages read one after the other leave what one message with both's header lines would.", "quantifier": "All inputs, blocks and buffer sizes; all objects.", "why_tests_cant": "Every input meets every history of the object it is parsed into.", "anchors": ["sips/sips.go:SIP.Parse", "sips/sips.go:SIP.ParseHeader", "sips/sips.go:SIP.fillHeader", "sips/sips.go:SIP.fillBody"]}
{"id": "C186", "title": "The payload ParseBytes gives, exactly", "statement": "ParseBytes of any text into any object: the payload of an accepted text is the empty line, then what had been read ahead with the last lines, and then as many blocks of 4096 bytes of the text as are needed to reach Content-Length, the empty line being counted. For a text of at most 4096 bytes that is all that follows, as soon as Content-Length is larger than the empty line, and nothing otherwise. Text after the message is payload; the surplus is bounded.", "quantifier": "All texts and all objects.", "why_tests_cant": "The payload depends on where the buffer was filled, which depends on the length of every line before.", "anchors": ["sips/sips.go:SIP.ParseBytes", "sips/sips.go:SIP.Parse", "sips/sips.go:SIP.fillBody"]}
{"id": "C187", "title": "What an FLV Mixer does with writers that fail and are replaced", "statement": "Any calls on an FLV Mixer, SetWriter included, with writers that fail at any Write calls and accept any part of them: the Write calls each call means to make follow from the calls before alone (three per muxed tag; one for the file header and one for each saved tag), they are made up to the first that fails, and the call then answers with that error. A failing writer has no lasting effect: after it is replaced, everything is written and answered as if it had worked, and a working writer is given exactly the pieces of the calls made while it was set.", "quantifier": "All histories of calls, all writers, all failure patterns, all points of replacement.", "why_tests_cant": "Every history times every failure pattern of every writer.", "anchors": ["container/flv/mixer.go:Mixer", "container/flv/mixer.go:Mixer.SetWriter", "container/flv/muxer.go:Muxer"]}
{"id": "C188", "title": "What a TS Mixer does with writers that fail and are replaced", "statement": "Any calls on a TS Mixer, SetWriter included, with writers that fail at any Write calls and accept any part of them: which frames a call means to send, with which times, and how it answers follow from the calls before alone. Each call writes whole packets of 188 bytes, one per Write call, up to the first that fails, and then answers with that error; the packets it means to write are three tables, or the frame as a demultiplexer finds it. A failing writer has no lasting effect: a working writer set later is given, whatever became of the writers before it, a stream in which a demultiplexer finds exactly the frames of the calls made while it is set (if none of these calls panics, and their key frames have 170 bytes or more: C38).", "quantifier": "All histories of calls, all writers, all failure patterns, all points of replacement.", "why_tests_cant": "Every history times every failure pattern of every writer.", "anchors": ["container/ts/mixer.go:Mixer", "container/ts/mixer.go:Mixer.SetWriter", "container/ts/muxer.go:Muxer.Mux"]}
{"id": "C189", "title": "A response carries what identifies the request it answers", "statement": "A server parses a request (however it arrives, into an object of any history), copies Via, From, To, Call-ID and CSeq into a new header map with CopyFrom, makes a response with MakeResponse and writes its Bytes; whoever sent the request parses these, however they arrive, and finds in the response the values it sent, as text and in the typed fields (RFC 3261 8.2.6.2).", "quantifier": "All requests that Parse accepts, all codes and bodies, all orders of the header map, all segmentations.", "why_tests_cant": "Every request times every iteration order and segmentation of the answer.", "anchors": ["sips/header.go:SIPHeader.CopyFrom", "sips/easy.go:MakeResponse", "sips/sips.go:SIP.Bytes", "sips/sips.go:SIP.Parse"]}
{"id": "C190", "title": "What becomes of a message that is passed on, hop by hop", "statement": "A message is written with Bytes and read with ParseBytes into a new object, which is written and read in turn, any number of times. It keeps its first line, its headers and its typed fields; Content-Length is the length of the body sent at the last hop. An empty body stays empty; of a body of one or two bytes the first hop leaves CRLF; every other body gets another CRLF in front at each hop. So only the empty body and CRLF arrive as they were sent.", "quantifier": "All plain messages, all numbers of hops, all orders of the header maps at each hop; texts of at most 4096 bytes.", "why_tests_cant": "Every number of hops times every message.", "anchors": ["sips/sips.go:SIP.Bytes", "sips/sips.go:SIP.ParseBytes", "sips/sips.go:SIP.fillBody"]}
{"id": "C191", "title": "Header names and credentials, exactly", "statement": "Reading, setting and parsing a header under a name reads, sets or extends exactly the header whose lower-case ASCII name it spells: the letters in either case, U+0130 for i and U+212A for k, and nothing else. NewSIPAuth gives the parameters of the list after the word Digest, in any ASCII case, and a space; it panics if an element of the list ends at its equals sign or one quote after it; credentials of any other scheme have no parameters.", "quantifier": "All texts as names, all lower-case ASCII header names, all header maps; all texts as credentials (the parameter list in ASCII).", "why_tests_cant": "All texts, in all encodings of the letters.", "anchors": ["sips/header.go:SIPHeader.GetHeader", "sips/header.go:SIPHeader.SetFirstHeader", "sips/sips.go:SIP.ParseHeader", "sips/auth.go:NewSIPAuth"]}
{"id": "C192", "title": "Parameter lists in any text", "statement": "ParseArgsPairs, and NewSIPAuth after the word Digest, read any bytes as the characters of UTF-8, where a byte with which no character begins counts as U+FFFD; the characters divide into elements as in C155, with all Unicode white space around an element stripped; every key has the value of the last parameter with this key, in UTF-8; they panic just if an element ends at its equals sign or one quote after it. A value of non-ASCII characters without white space comes back as it was written.", "quantifier": "All texts (lists of bytes), valid UTF-8 or not.", "why_tests_cant": "All texts of any length and encoding.", "anchors": ["sips/header_args.go:ParseArgsPairs", "sips/header_args.go:Args.ParseList", "sips/auth.go:NewSIPAuth"]}
{"id": "C193", "title": "Numbers AMF cannot hold exactly, and dates", "statement": "Encode (AMF0 and AMF3) writes an integer as the nearest binary64, of two equally near the one whose last bit is 0, infinity from half a unit above the greatest finite one; there is exactly one such number. AMF3 Encode writes a time as its seconds to the nearest binary64, times 1000 to the nearest. AMF3 Decode of a date with any eight bytes gives the whole part of the nearest binary64 to a thousandth of the number, or -2^63 seconds if that does not fit an int64 or the number is infinite or not a number. A date that is a whole number of milliseconds up to 2^53 decodes to the whole seconds in it, in spite of the rounding.", "quantifier": "All integers of all Go integer types; all int64 seconds; all 2^64 bit patterns.", "why_tests_cant": "2^64 integers and 2^64 patterns; rounding of every one of them.", "anchors": ["amf/amf0.go:EnDecAMF0.Encode", "amf/amf3.go:EnDecAMF3.Encode", "amf/amf3.go:EnDecAMF3.decodeDate", "amf/amf3.go:EnDecAMF3.encodeDate"]}
{"id": "C194", "title": "Credential values that do not print", "statement": "Credentials Digest followed by CommaString of parameters with values of any ASCII characters (but DEL) and bytes with which no character of UTF-8 begins: NewSIPAuth reads each printable character back as it is, BEL, BS, HT, LF, VT, FF and CR as the letters a, b, t, n, v, f, r, and every other byte as x and its two hexadecimal digits. So a value comes back as it was just if all of it prints. Whatever bytes the values are, CommaString writes no control character, and an address writes none because of its display name.", "quantifier": "All parameter lists with distinct keys, all values of ASCII and stray bytes; for the last part all bytes.", "why_tests_cant": "All byte strings.", "anchors": ["sips/header_args.go:Args.CommaString", "sips/header_args.go:ParseArgsPairs", "sips/auth.go:NewSIPAuth", "sips/user.go:SIPUser.Bytes"]}
{"id": "C195", "title": "Line breaks in SIP header values", "statement": "A header value cannot become another header: what is written as the value of one header is received as a value of that header. This holds of values that were received, because Parse never stores a value with a line feed in it, whatever the input, the reads and the outcome. It does not hold of values given to the setters: a value with CR LF, a name, a colon and another value in it is written exactly as two headers are, and the receiver gets a header the sender never set.", "quantifier": "All readers, all objects; for the second part all plain messages, all names and values, all orders of the headers and all divisions of the text into reads.", "why_tests_cant": "All inputs and all values.", "anchors": ["sips/sips.go:SIP.Parse", "sips/sips.go:SIP.ParseHeader", "sips/sips.go:SIP.Bytes", "sips/header.go:SIPHeader.Bytes", "sips/header.go:SIPHeader.SetFirstHeader"]}
{"id": "C196", "title": "Messages with several values or none under a name, exactly", "statement": "Bytes writes a message whose header map has any number of values under each name, and Parse reads the text, which arrives in blocks of any sizes, as follows. All values of a name arrive as one, with a space between them: two Via values become one. A name without values takes the name visited next, and its values, for its own value, and that name is not received; so if it is Content-Length, the message is refused. If the last name visited has none, no empty line comes before the payload, whose lines are read as headers. Parse accepts the text just if Content-Length is received and no From, To, Contact or Via received panics, and then the object has the first line of the message and exactly the values received.", "quantifier": "All messages with lower-case names, any number of values without CR and LF, any payload; all orders in which the names are visited; all divisions of the text into reads; all buffer sizes the lines fit.", "why_tests_cant": "All messages and all map iteration orders, which Go chooses at random.", "anchors": ["sips/header.go:SIPHeader.Bytes", "sips/sips.go:SIP.Bytes", "sips/sips.go:SIP.Parse", "sips/sips.go:SIP.ParseHeader"]}
{"id": "C197", "title": "A Tag after any history of bodies, exactly", "statement": "After any calls of ParseMediaTagHeader on one Tag, SoundFormat, IsSoundAAC and IsSoundMP3 report the latest audio body of at least two bytes, also one that was refused; AACType and IsAACSeqHdr report the latest AAC body, also after MP3. IsKeyFrame, IsInterFrame, CodecID and IsCodecAvc report the latest video body of at least five bytes. The packet type is that of the latest key or inter frame. CompositionTime is 0 unless that is a NALU, and otherwise its 24 bits with the last byte of the composition time of the key or inter frame before it above them, as a signed number; so on a Tag used before it is the time of the body just if the time before ended in a zero byte. What each call returns depends on its own body alone.", "quantifier": "All histories of calls on a Tag, with all media types and all bodies of all lengths.", "why_tests_cant": "All histories of calls on one object.", "anchors": ["container/flv/tag.go:Tag.ParseMediaTagHeader", "container/flv/tag.go:Tag.CompositionTime", "container/flv/tag.go:Tag.SoundFormat", "container/flv/tag.go:Tag.AACType", "container/flv/tag.go:Tag.CodecID"]}
{"id": "C198", "title": "AMF encoders on writers that fail, exactly", "statement": "For every value, each AMF encoder makes the same Write calls whatever the writer does with them, and together they carry the full text of C181 and C183. At the first call that fails it stops: the writer has the calls before and what the failing call accepted, and the encoder returns the writer's error. If no call fails it answers the count, or an error if a value of another Go type was met. EncodeWithAMF3 and EncodeXmlDocument differ in one point: if their first call fails they return a count of 0 and no error. So the writer always has a beginning of the full text, and all of it if Encode answered a count.", "quantifier": "All values, all writers: any call may fail after accepting any number of bytes.", "why_tests_cant": "All values and all points of failure.", "anchors": ["amf/amf0.go:EnDecAMF0.Encode", "amf/amf0.go:EnDecAMF0.EncodeBatch", "amf/amf0.go:EnDecAMF0.EncodeWithAMF3", "amf/amf0.go:EnDecAMF0.EncodeXmlDocument", "amf/amf0.go:EnDecAMF0.EncodeEcmaArray", "amf/amf0.go:EnDecAMF0.EncodeReference", "amf/amf0.go:EnDecAMF0.EncodeUndefined", "amf/amf0.go:EnDecAMF0.EncodeUnsupported", "amf/amf3.go:EnDecAMF3.Encode", "amf/amf3.go:EnDecAMF3.EncodeBatch"]}
{"id": "C199", "title": "Header maps keep the last value set under every name", "statement": "A program that makes header maps and calls any of the setters and CopyFrom on them, copying a map to itself included, never panics. Afterwards GetFirstHeader returns, for each map and each name in any case, the value the last of these calls set, and GetHeader that value alone; a copied header has the value its source had at the time of the copy, or the empty text if it had none; a header never set is absent. Only the nil map panics, for every setter.", "quantifier": "All programs over any number of maps, all names and values.", "why_tests_cant": "All sequences of calls.", "anchors": ["sips/header.go:SIPHeader.SetFirstHeader", "sips/header.go:SIPHeader.CopyFrom", "sips/header.go:SIPHeader.GetFirstHeader", "sips/header.go:SIPHeader.GetHeader", "sips/header.go:SIPHeader.SetContentLength", "sips/header.go:SIPHeader.SetSIPVia"]}
{"id": "C200", "title": "A message made from headers that were set arrives with the last value of each", "statement": "A program fills header maps with the setters and CopyFrom (names of graphic characters without colon, values without CR and LF), and MakeRequest or MakeResponse makes a message of one of the maps and a body. Bytes writes it without an error or panic. If the lines fit the reader's buffer, then however the text is cut into blocks, Parse accepts it if and only if the From, To, Contact and Via values last set are addresses its parsers read, and panics otherwise. The object accepted has the first line of the message, under every name the value last set without the spaces around it and nothing under names never set, the length of the body under Content-Length whatever was set there, and its typed From, To, Contact, CSeq and Via fields say those values. Its payload is the body behind a CR LF with at most two bytes lost at the end (C91).", "quantifier": "All programs over header maps, all requests and responses, bodies, map orders, block sizes and buffer sizes that fit.", "why_tests_cant": "All sequences of calls, map orders and ways the text arrives.", "anchors": ["sips/easy.go:MakeRequest", "sips/easy.go:MakeResponse", "sips/header.go:SIPHeader.SetFirstHeader", "sips/header.go:SIPHeader.CopyFrom", "sips/sips.go:SIP.Bytes", "sips/sips.go:SIP.Parse"]}
{"id": "C201", "title": "Messages without payload that follow one another on a connection, exactly", "statement": "Any number of serialized messages without payload arrive one behind the other on one connection, and behind them one more message with or without payload. One call of Parse reads all of them as one message (Bytes ends a message without payload without the empty line): the object has the first line of the first message; under every name the values of all the messages in their order, so that Content-Length has one value for each; each request line behind the first is a header whose name is the method and the URI scheme and whose value is the rest, and status lines vanish. The payload of the last message is not read: Parse leaves it on the connection, where the next call takes it for the first line of a message. Parse accepts this if and only if the first From, To, Contact and Via values among them are addresses its parsers read, and panics otherwise. This holds however the bytes are cut into blocks.", "quantifier": "All sequences of messages with at least one value per name, all map orders, block and buffer sizes that hold the lines.", "why_tests_cant": "All sequences of messages of any length and all ways in which they arrive.", "anchors": ["sips/sips.go:SIP.Parse", "sips/sips.go:SIP.Bytes", "sips/header.go:SIPHeader.GetHeader"]}
{"id": "C202", "title": "How much a TS Mixer has written follows from the history of calls", "statement": "From the calls alone one can say how much a TS Mixer has written. A frame takes its media and a header (19 bytes for video whose two times differ, else 14; 8 more for a key frame), in packets of 184 such bytes, the last one padded. Each SetTsHeader that is accepted takes three packets. Nothing else is written: if no call panics, the output has grown by 188 bytes for every such packet, and Write has been called once per packet.", "quantifier": "All histories of calls of the Mixer other than SetWriter, on any writer that does not fail, with media of any length.", "why_tests_cant": "All histories and media of all lengths.", "anchors": ["container/ts/mixer.go:Mixer.Mux", "container/ts/mixer.go:Mixer.SetTsHeader", "container/ts/muxer.go:Muxer.Mux"]}
{"id": "C203", "title": "An H.264 decoder finds exactly the published units in what is written", "statement": "Everything the H.264 parser writes for a stream, and the video payloads of a TS recording of a live FLV stream one behind the other, are read by a byte stream reader (H.264 Annex B) as: for every picture an access unit delimiter, its slices and SEI in order, and before its first IDR the parameter sets of the picture that precede it, or else those of the sequence headers so far. The pictures consist of any units H.264 allows (no start code inside, last byte not zero).", "quantifier": "All streams of sequence headers and pictures, with any number of units of any length; all writers that do not fail.", "why_tests_cant": "All streams; that a reader which knows only start codes finds the same units again depends on all contents.", "anchors": ["parser/h264/parser.go:Parser.Parse", "parser/h264/parser.go:getAnnexbH264", "container/ts/mixer.go:Mixer.Mux"]}
{"id": "C204", "title": "Metadata arrive as they were published", "statement": "A name and values encoded by EncodeBatch, with or without @setDataFrame in front (AddMetaHeader), and given to Mux of an FLV Mixer as metadata, come back from the file: a reader of the tag that is written gets, with DecodeBatch, the same name and values without the command, at the time given. Metadata saved with SaveMetadata are read back from the first tag behind the file header that SetFlvHeader writes, as onMetaData and the object saved last.", "quantifier": "All names of 1 to 65535 bytes but @setDataFrame, all lists of values that AMF0 can represent, all histories of the mixer, times, and readers that deliver the tag's data in one piece.", "why_tests_cant": "All values and histories; the encoder, the command, the tag and the decoder are tested one by one.", "anchors": ["amf/amf0.go:EnDecAMF0.EncodeBatch", "amf/metadata.go:AddMetaHeader", "container/flv/mixer.go:Mixer.Mux", "container/flv/mixer.go:Mixer.SaveMetadata", "container/flv/mixer.go:Mixer.SetFlvHeader", "amf/amf0.go:EnDecAMF0.DecodeBatch"]}
{"id": "C205", "title": "What AMF0 Decode returned can be encoded and decoded again", "statement": "A value that AMF0 Decode returned, passed to Encode again with its maps traversed in any order, is encoded without error, and Decode makes the same value of those bytes, in any decoder. The decoder may have been used before for other such inputs, and stays usable in this way.", "quantifier": "All AMF0 inputs, written by any program, with any type of value but embedded AMF3 values, in which no reference denotes an object that contains it; all later calls of the same decoder, orders of map iteration, writers that work, and decoders of the bytes written.", "why_tests_cant": "All inputs, histories of the decoder and orders of map iteration.", "anchors": ["amf/amf0.go:EnDecAMF0.Decode", "amf/amf0.go:EnDecAMF0.Encode"]}
{"id": "C206", "title": "A receiver gets exactly the frames that arrived whole when packets of a TS stream are lost", "statement": "If packets of a transport stream written by a Mixer are lost on the way, a receiver that watches the continuity counters and drops damaged units gets exactly the frames all of whose packets arrive (and the first packet of the next frame on that PID, which tells it that the frame is over), with their media and times, and never a damaged one, as long as no 16, 32, ... packets of a PID in a row are lost. A receiver that starts at any packet gets exactly the frames that begin from there on. Two packets of a PID seem to follow each other exactly if a multiple of 16 between them is missing.", "quantifier": "All sequences of Mux, Update, SaveMetadata and SetTsHeader calls from any state of a Mixer, all frames, and all sets of lost packets.", "why_tests_cant": "All combinations of losses, frame sizes and starting counters.", "anchors": ["container/ts/mixer.go:Mixer.Mux", "container/ts/muxer.go:Muxer.Mux"]}
{"id": "C207", "title": "An AAC decoder finds exactly the published frames in what is written", "statement": "All that an aac.Parser writes for a stream of configurations and frames, one behind the other, is an ADTS stream: a decoder that goes from header to header by the length in each finds exactly the published frames, each with object type, frequency index and channels of the configuration that came last, and nothing else. The same holds for the payloads of the audio PID in a TS recording of an FLV stream.", "quantifier": "All streams of configurations with object types 1 to 4, defined frequencies and up to 7 channels, and frames of 1 to 8184 bytes of any content, sync words included; writers that work.", "why_tests_cant": "All streams and contents; the decoder must not lose its place anywhere.", "anchors": ["parser/aac/parser.go:Parse", "container/ts/mixer.go:Mixer.Mux"]}
{"id": "C208", "title": "What AMF3 Decode returned can be encoded again unless an array is in it", "statement": "A value that EnDecAMF3.Decode returned can be passed to EnDecAMF3.Encode. If an array is in it, at any depth below objects, Encode returns an error; otherwise Encode succeeds, and any decoder makes the same value of the bytes, but that the integer 2^29-1 comes as a float64. This holds for a decoder with any history of AMF0 and AMF3 Decode calls, failed ones included.", "quantifier": "All inputs, all histories of a decoder on readers of any kind, all orders in which maps are traversed, all writers that work, all decoders that read the bytes; for what comes back, times within 2^53 ms of 1970.", "why_tests_cant": "All values Decode can return for any bytes after any calls; tests try a few values with new decoders.", "anchors": ["amf/amf3.go:EnDecAMF3.Decode", "amf/amf3.go:EnDecAMF3.Encode", "amf/amf3.go:EcmaArrayAMF3"]}
{"id": "C209", "title": "What every FLV mixer gets of one metadata packet, exactly", "statement": "When one metadata packet is handed to several FLV mixers, the mixer that comes after n others does what it would do with a packet of its own that has lost the @setDataFrame commands the others took away: each takes away the one in front, if the data begin with one, and a mixer that refuses the packet takes nothing. With the command k times in front of a name, the first k mixers write it k-1, k-2, ... times, and all later ones without it.", "quantifier": "All metadata, all numbers of mixers of any history, all time stamps, and writers that fail at any call.", "why_tests_cant": "All packets and sequences of mixers.", "anchors": ["container/flv/mixer.go:Mixer.Mux", "amf/metadata.go:DelMetaHeader"]}
{"id": "C210", "title": "Addresses converted into one another share their parameters and nothing else", "statement": "ToRequest and ToUser give an address with fields of its own and the same parameters: after any calls of NewSIPUser, NewSIPRequest, ToRequest, ToUser, Bytes, assignments to URIType, User, Host and Port and Set and Del on Args, every field of an address has the value last assigned to it, and every parameter the value last set on that address or on any other that comes from the same parsed one. So a tag set on a To address made from a request URI is in the request line too; a call on an address leaves all unrelated ones as they were.", "quantifier": "All texts whose parsing does not panic, all histories of calls on any number of addresses.", "why_tests_cant": "The last writer may be any of the addresses related by any number of conversions.", "anchors": ["sips/user.go:SIPUser.ToRequest", "sips/request.go:SIPRequest.ToUser", "sips/header_args.go:Args.Set", "sips/header_args.go:Args.Del"]}
{"id": "C211", "title": "What every FLV subscriber of one GOP cache gets, exactly", "statement": "When one GOP cache is replayed to FLV mixers one after the other, the mixer that comes after n others, all served without an error, writes what it would write for packets of its own in which the metadata have lost the @setDataFrame commands the others took away (C209) and all other packets are as published; and it gives the same answer.", "quantifier": "All histories of the cache, all packets, any number of subscribers, all states of their mixers; the last subscriber's writer may fail at any call.", "why_tests_cant": "All histories and numbers of subscribers; the packets are shared and each Mux rewrites their payload.", "anchors": ["container/flv/mixer.go:Mixer.Mux", "gop/cache.go:Cache.SendTo", "amf/metadata.go:DelMetaHeader"]}
{"id": "C212", "title": "When it matters to Parse how io.EOF comes, exactly", "statement": "Over sources that deliver the same blocks and then io.EOF, Parse gives the same object and the same result whether io.EOF comes with the last bytes or after them, unless after some lines all that is left has no line feed and is exactly as long as the buffer. In that case, with io.EOF in the same Read, Parse gives what it gives with every larger buffer, in whatever blocks; with io.EOF in a Read of its own, it returns an error, provided the lines before can be read.", "quantifier": "All texts, all blocks that are not empty, all buffer sizes, all objects with any history.", "why_tests_cant": "All texts in all blocks and both ways of ending; the exception depends on the buffer size.", "anchors": ["sips/sips.go:SipLayers.Parse", "sips/sips.go:SipLayers.fillBody"]}
{"id": "C213", "title": "A message passed on over connections", "statement": "Let a message whose parts are plain be written with Bytes, be read with Parse into a new object from a connection that delivers the text in any blocks, through any buffer that its lines fit, and be passed on again in the same way, any number of times. Every hop succeeds, and the message is read as the original would be if its body were the one sent at the last hop. An empty body stays empty; a body of one or two bytes is CRLF from the first hop on; any other has, after k hops, k times CRLF in front and lacks at most 2k bytes at the end. Every one of these bodies does arrive over some connections.", "quantifier": "All plain messages, all numbers of hops, at every hop all orders of the header map, all divisions into blocks and all buffers of at least 128 bytes that the lines fit.", "why_tests_cant": "Unboundedly many hops, each with its own map order, blocks and buffer.", "anchors": ["sips/sips.go:SipLayers.Bytes", "sips/sips.go:SipLayers.Parse", "sips/sips.go:SipLayers.fillBody"]}
{"id": "C214", "title": "The memory a Decode call can ask for, at most", "statement": "Whatever it reads, from whatever reader and after whatever history, and whether it succeeds or not, one Decode call of either decoder makes buffers of at most 2^30+1 bytes for every byte it reads, and eight bytes. A bound of this order is needed: n times the same six bytes make the AMF3 decoder ask for n times 2^32-16 bytes, in arrays inside each other that are all in use at the same time.", "quantifier": "All inputs, all readers in whatever pieces, all decoders that know no externalizable class (Decode makes none), all results; all n.", "why_tests_cant": "All inputs and readers; and no test can hold the buffers.", "anchors": ["amf/amf3.go:decodeArray", "amf/amf3.go:decodeByteArray", "amf/amf0.go:decodeLongString", "amf/helper.go:readBytes"]}
{"id": "C215", "title": "How deep Decode calls itself", "statement": "Decode calls itself for the members of arrays and objects. From whatever reader, after whatever history and with whatever result, at most one more call of the AMF3 Decode is active than half the bytes that have been read, and one more again for the AMF0 Decode, which calls the AMF3 one after a single byte. There is no other limit, and these bounds are reached: for every k, 2k+1 bytes make k+1 calls active, so the stack a peer can make Decode use grows with the length of its message.", "quantifier": "All inputs, all readers in whatever pieces, all decoders that know no externalizable class (Decode makes none), all results; all depths k.", "why_tests_cant": "All inputs and readers, and every depth; a test deep enough to exhaust the stack ends the process.", "anchors": ["amf/amf3.go:decodeArray", "amf/amf3.go:decodeObject", "amf/amf0.go:decodeObject", "amf/amf0.go:decodeStrictArray"]}
{"id": "C216", "title": "What a decoder asks for over its life", "statement": "For any sequence of Decode and DecodeBatch calls on one decoder, AMF0 and AMF3 mixed, each with a reader of its own and whatever each of them returns: every call returns at most as many values as it reads bytes, has at most (read + 3) / 2 calls of Decode active at one time, and all the calls together ask for at most about a gibibyte for every byte they read and eight bytes for each call. Nothing a decoder keeps from earlier calls raises this, and nothing lowers it: the same six bytes make it ask for about 4 GiB every time.", "quantifier": "All sequences of calls of any length, all readers in whatever pieces, all results including failures and panics the caller recovers from.", "why_tests_cant": "All sequences of calls and all inputs; the tables a decoder keeps between calls make its state depend on all of them.", "anchors": ["amf/amf0.go:DecodeBatch", "amf/amf3.go:DecodeBatch", "amf/amf0.go:Decode", "amf/amf3.go:Decode"]}
{"id": "C217", "title": "What a message carries of the one its headers are copied from, exactly", "statement": "A message is read with Parse, headers of any names are copied from it with CopyFrom, and a response, or a request that goes on, is made with them and any body and written with Bytes. Whoever reads the text, however it arrives, accepts it, without error or panic. Every name copied has its first value, without the spaces around it, and no second one; a name not copied has none, and Content-Length says the length of the body. The typed From, To, Contact and Via are those of the message that was read, but for the text they were read from. So a value arrives as it was just if it has no space at either end.", "quantifier": "All messages accepted by Parse, from all readers, into objects of any history that hold no line feed; all lists of names; all bodies; all orders of the map; all ways the text is cut into blocks.", "why_tests_cant": "All messages, lists of names, traversal orders and ways of cutting the text; tests try a few of each.", "anchors": ["sips/header.go:CopyFrom", "sips/easy.go:MakeRequest,MakeResponse", "sips/sips.go:Bytes,Parse"]}
{"id": "C218", "title": "What a packet shows after Mux and later calls", "statement": "After a successful Mux, and until its packet is assigned or handed over again, the packet's Media shows as many bytes as were sent: those sent, with the bytes that the same mixer's later Mux calls converted their packets to written over them from the beginning, one after the other, until the first conversion that has no room in the buffer they lie in; of that one a first part may still show, of later ones nothing. So every byte shown is the one sent at that place or one that a later Mux of the same mixer put at that place, whatever else is called, whether the calls fail, and however bytes.Buffer grows. Where no later frame is longer, all of them go over it.", "quantifier": "every call history in which packets are used once between assignments, all later calls, every packet, mixer, writer and growth policy of bytes.Buffer", "why_tests_cant": "What shows depends on the sizes and the order of all the frames muxed later and on when the buffer grows.", "anchors": ["container/ts/mixer.go:Mux,parse", "packet/packet.go:Packet", "parser/aac/parser.go:Parse", "parser/h264/parser.go:Parse"]}
{"id": "C219", "title": "Encoding a decoded AMF0 value again writes no more than was read", "statement": "Passing what AMF0 Decode returned to AMF0 Encode writes no more bytes than Decode consumed. Refuted: references make Encode write a shared object once for each way to reach it, so for each n up to 65535 there is an input of 13n + 4 bytes that Decode accepts and for which Encode writes exactly 14 * 2^n - 10 bytes, in whatever order it meets the members. True for input without references and AMF3 values.", "quantifier": "every AMF0 document without references and AMF3 values, every decoder history, every following input, every map order; every nesting depth n < 65536 for the refutation", "why_tests_cant": "The growth depends on the nesting of references and is beyond any size a test can write out; the bound for the rest ranges over all documents.", "anchors": ["amf/amf0.go:EnDecAMF0.Decode", "amf/amf0.go:EnDecAMF0.Encode", "amf/amf0.go:EnDecAMF0.decodeReference", "amf/amf0.go:EnDecAMF0.encodeObject"]}
{"id": "C220", "title": "How long the encoding of a decoded AMF3 value is", "statement": "Passing to AMF3 Encode what AMF3 Decode of a new decoder returned after consuming n bytes, with input left behind them, writes at most (n + 10) n bytes, whether or not Encode fails, and in whatever order it meets the members: references, to names, classes and values, cannot make it grow faster. The square is reached: for each name k and each n there is an input of at most |k| + 2n + 8 bytes for which Encode writes at least (n + 1) |k|. The bound does not hold where the input ends: for each length below 2^28 there is an input of at most six bytes that is decoded to a byte array of that length, all of which Encode writes.", "quantifier": "every input and reader, every value it begins with, every map order, every writer that does not fail; every name and every depth for the lower bound; every length for the exception", "why_tests_cant": "The bound ranges over all inputs, with all their references into tables filled by the input itself.", "anchors": ["amf/amf3.go:EnDecAMF3.Decode", "amf/amf3.go:EnDecAMF3.Encode"]}
{"id": "C221", "title": "Editing a received SIP message", "statement": "After Parse has read a message, any sequence of SetHeader and SetBody calls leaves LayerContents as the bytes read before the empty line and the start line and the users, Via and CSeq as they were; the headers and the body are those of the last calls, and what Bytes writes depends on these alone.", "quantifier": "every message text, every way it arrives, every sequence of SetHeader and SetBody calls", "why_tests_cant": "sequences of calls of any length on every message Parse accepts", "anchors": ["sips/sips.go:SetHeader,SetBody,Parse,Bytes", "sips/base.go:BaseLayer"]}
{"id": "C222", "title": "Class names of AMF0 typed objects", "statement": "Encoding a typed object either fails or produces bytes that decode to an object of the same class, with the same keys, for every class name.", "quantifier": "every class name, every list of members, every decoder and whatever follows in the input", "why_tests_cant": "class names and keys of every length, with every list of members; the length on the wire has 16 bits", "anchors": ["amf/amf0.go:encodeTypeObject,encodeString,decodeTypedObject"]}
{"id": "C223", "title": "Src of SIP address objects", "statement": "Through every history of assignments, Bytes calls and conversions between SIPUser and SIPRequest, each field of an address is the one last assigned, Src is the text of the fields when Bytes was last called, and a conversion loses nothing but the display name and leaves Src the text of the new object.", "quantifier": "every address, every sequence of assignments, Bytes, ToRequest and ToUser", "why_tests_cant": "every order of assignments, writes and conversions on every address", "anchors": ["sips/user.go:SIPUser.Bytes,SIPUser.ToRequest", "sips/request.go:SIPRequest.Bytes,SIPRequest.ToUser", "sips/via.go:SIPVia.Bytes"]}
