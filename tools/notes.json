{
"C01": {
"how": "lu/px of every unit class over all rationals; round-half-even lemmas"
},
"C02": {
"how": "monotonicity and oddness of round-half-even"
},
"C03": {
"how": "case analysis on px()"
},
"C04": {
"how": "field identities on the scale factors"
},
"C05": {
"how": "algebra on px()"
},
"C06": {
"how": "decimal printer against the float() grammar, for all integers",
"note": "False as stated: a whole magnitude above 2^53 does not survive float() (C06_refuted). Proved for every whole magnitude a float can hold and for numbers and numeric texts."
},
"C07": {
"how": "invariant: the registry is the built-in one followed by entries with built-in suffixes; parse results depend on the prefix only"
},
"C08": {
"how": "acceptance of the length validator",
"note": "False as stated: '10deg', 'inf' and 'nan' are accepted (C08_refuted). Exact replacement: C87 (accepted texts), C88 (which convert)."
},
"C09": {
"how": "case analysis on strings of length 3 and 4"
},
"C10": {
"how": "case analysis on digit pairs",
"note": "False as stated: int(' f', 16) and signs are accepted (C10_refuted). Exact replacement: C89."
},
"C11": {
"how": "table of 147 names lifted over all letter cases; no other name by the lookup"
},
"C12": {
"how": "equality with the CSS Color 3 algorithm written in ColorSpec.v",
"note": "False for hues strictly between 240 and 300 (C12_refuted). Exact replacement there: C90."
},
"C13": {
"how": "rational arithmetic on the six sectors",
"note": "Range proved; periodicity is false (C13_refuted). Exact replacement: C92."
},
"C14": {
"how": "the parser on printed components with any blanks",
"note": "Unbalanced parentheses are accepted (C14_refuted). Exact replacements: C91, C160."
},
"C15": {
"how": "the order in which sets are iterated is an arbitrary permutation parameter of the model; result independent of it"
},
"C16": {
"how": "normal forms per property",
"note": "False for clip, border-spacing, quotes, url cursors and angles (C16_refuted). Exact replacement: C83."
},
"C17": {
"how": "classification of the exceptions of all validators",
"note": "False for six kinds of input (C17_refuted). Exact replacement: C84."
},
"C18": {
"how": "one step of the declaration machine from any state"
},
"C19": {
"how": "one step of the declaration machine from any state"
},
"C20": {
"how": "one step of the declaration machine",
"note": "False for directional properties, update() and outline (C20_refuted). Exact replacement: C85."
},
"C21": {
"how": "one step of the declaration machine"
},
"C22": {
"how": "one step of the declaration machine"
},
"C23": {
"how": "expansion of 1 to 4 values against a table"
},
"C24": {
"how": "permutation invariance of the part parser"
},
"C25": {
"how": "reading after setting",
"note": "`border` always reads '' (C25_refuted). Exact replacement for the others: C86."
},
"C26": {
"how": "name lookup and the fold of update()"
},
"C27": {
"how": "keys/items/str from any state",
"note": "A value equal to the initial value is not stored, hence not in keys() (C27_refuted). Exact replacement: C97."
},
"C28": {
"how": "copy() as a fold of assignments",
"note": "copy() raises or loses values (C28_refuted). Exact replacement: C98."
},
"C29": {
"how": "reading border colours and text-align in any state"
},
"C30": {
"how": "invariant over all operation sequences",
"note": "Angles are accepted as lengths and reach the engine (C30_refuted). The kinds otherwise are proved; C99 gives the exact view of the engine."
},
"C31": {
"how": "characterisation of the accepted sequences and texts"
},
"C32": {
"how": "characterisation of the accepted texts"
},
"C33": {
"how": "rect() on four lengths",
"note": "The order is top, right, left, bottom (C33_refuted). Exact replacement: C93."
},
"C34": {
"how": "characterisation of the accepted texts and sequences"
},
"C35": {
"how": "characterisation of the accepted sequences"
},
"C36": {
"how": "operations of list on ImmutableList",
"note": "del, +=, *= and clear are not blocked (C36_refuted). Exact replacement: C96."
},
"C37": {
"how": "algebra over all boxes"
},
"C38": {
"how": "algebra over all boxes"
},
"C39": {
"how": "invariant over operation sequences on trees",
"note": "Resetting a non-root node breaks it (C39_subtree_reset_refuted). Exact replacement: C68."
},
"C40": {
"how": "invariant over assignment sequences",
"note": "A whole float such as 5.0 is ignored (C40_whole_float_refuted). Exact replacement: C69."
},
"C41": {
"how": "invariant over dirtiness assignments",
"note": "False after cleaning a single child (C41_cleaned_child_refuted). Exact replacement: C70."
},
"C42": {
"how": "one assignment"
},
"C43": {
"how": "width phase of every laid-out block",
"note": "Centring uses // 2 twice and loses pixels (C43_centred_odd_refuted). Exact replacement: C71."
},
"C44": {
"how": "width phase of every laid-out block",
"note": "Two refutations; exact replacement: C72."
},
"C45": {
"how": "width phase",
"note": "min/max-width are ignored when width is auto (C45_auto_width_refuted). Exact replacement: C73."
},
"C46": {
"how": "width phase; mirrored styles"
},
"C47": {
"how": "induction along the block flow",
"note": "Gaps use the collapsed extent of the previous block (C47_plain_margins_refuted). Exact replacement: C75."
},
"C48": {
"how": "height phase of every laid-out block",
"note": "Trailing inline content (C48_trailing_inline_refuted). Exact replacement: C76."
},
"C49": {
"how": "height phase",
"note": "min-height is ignored with explicit height (C49_min_height_refuted). Exact replacement: C77."
},
"C50": {
"how": "the end of layout()"
},
"C51": {
"how": "the invariant of C39 along layout_box"
},
"C52": {
"how": "layout factors through reset",
"note": "A node whose box was removed keeps history (C52_history_refuted). Exact replacement: C79. After any history, everything but origins is independent of it (C122)."
},
"C53": {
"how": "frame property along layout_box, in every outcome"
},
"C54": {
"how": "progress, by induction on the tree"
},
"C55": {
"how": "contrapositive: what success implies for each laid-out node"
},
"C56": {
"how": "two-run induction against the pruned document",
"note": "False in general (C56_refuted). Exact replacements: C104, C105."
},
"C57": {
"how": "relative boxes against static ones",
"note": "Vertically the upper edge is added twice and the parent grows (two refutations). C112 gives the exact position. Exact replacement: C126."
},
"C58": {
"how": "width and height phases of inline replaced elements",
"note": "The height is width * ratio (C58_ratio_refuted). Exact replacement: C81."
},
"C59": {
"how": "laid-out nodes of inline contexts",
"note": "Inline content after the last block is dropped (C59_mixed_content_refuted). C112 says exactly what happens to it. Exact replacement: C130."
},
"C60": {
"how": "sign invariant along layout",
"note": "Font-relative lengths are negative because the engine uses DummyFont(-1) (C60_font_refuted). Missing: those, inline and relative boxes, and horizontal margins. Exact replacement: C129."
},
"C61": {
"how": "extents along the first-child chain",
"note": "Sibling gaps do not use that extent (C61_sibling_gap_refuted). Exact replacement: C78."
},
"C62": {
"how": "witness",
"note": "False: the re-shown subtree has its origin at 0 (C62_reshow_refuted), and hiding the root or the last child of a relative auto-height block makes every later layout raise (C62_stuck_refuted). Proved: when the layouts succeed, everything but origins is the same, for all histories (C62_reshow_partial; exact in C122)."
},
"C63": {
"how": "witness",
"note": "False: border-style is not read by the engine (C63_border_style_none_refuted; also follows from C112). Exact replacement: C127."
},
"C64": {
"how": "two-run induction"
},
"C65": {
"how": "two-run statement on the width phase",
"note": "Missing: children of a relative root in HTML5 mode (C65_relative_root_refuted), stale boxes under re-shown nodes, relative blocks. True replacement: C74."
},
"C66": {
"how": "width phase",
"note": "Left/right paddings and borders use the height (C66_axis_refuted); C112 says which percentage refers to what. Exact replacement: C128."
},
"C67": {
"how": "witness",
"note": "False: layout never clears the flag (C67_dirty_after_layout_refuted). Exact replacement: C80."
},
"C68": {
"how": "as C39"
},
"C69": {
"how": "as C40"
},
"C70": {
"how": "as C41"
},
"C71": {
"how": "as C43"
},
"C72": {
"how": "as C44"
},
"C73": {
"how": "as C45"
},
"C74": {
"how": "as C65"
},
"C75": {
"how": "as C47"
},
"C76": {
"how": "as C48"
},
"C77": {
"how": "as C49"
},
"C78": {
"how": "as C61"
},
"C79": {
"how": "reset erases the history; induction over layouts"
},
"C80": {
"how": "dirtiness along layout_box"
},
"C81": {
"how": "as C58"
},
"C82": {
"how": "height phase"
},
"C83": {
"how": "case analysis over the kinds of stored values"
},
"C84": {
"how": "as C17"
},
"C85": {
"how": "as C20"
},
"C86": {
"how": "as C25"
},
"C87": {
"how": "float() grammar and the 18 suffixes"
},
"C88": {
"how": "as C08"
},
"C89": {
"how": "case analysis on pairs of characters"
},
"C90": {
"how": "as C12"
},
"C91": {
"how": "the text is cut by position"
},
"C92": {
"how": "as C13"
},
"C93": {
"how": "as C33"
},
"C94": {
"how": "list lemmas"
},
"C95": {
"how": "repr() and literal_eval on all Latin-1 strings"
},
"C96": {
"how": "as C36"
},
"C97": {
"how": "as C27"
},
"C98": {
"how": "as C28"
},
"C99": {
"how": "the declaration read into the engine's style record (Computed.v)"
},
"C100": {
"how": "congruence of layout in the styles"
},
"C101": {
"how": "C98 and C100"
},
"C102": {
"how": "C21 and C100 over operation sequences"
},
"C103": {
"how": "one acceptance table for all 50 longhands (AcceptSpec.v); for colours, spacings, rects and cursors the table names the parser, C163 replaces these by a written grammar"
},
"C104": {
"how": "two-run induction with the pruned document"
},
"C105": {
"how": "failure of the flow"
},
"C106": {
"how": "fuel equal to the height of the tree is never exhausted"
},
"C107": {
"how": "invariant along layout_box in every outcome"
},
"C108": {
"how": "binary64 rounding of rationals with bounded numerators"
},
"C109": {
"how": "error analysis of units.py with every operation rounded"
},
"C110": {
"how": "correct rounding of the decimal grammar"
},
"C111": {
"how": "C54 and C112"
},
"C112": {
"how": "induction over the tree: every box of layout_box against the reference layout of RefLayout.v"
},
"C113": {
"how": "text of each kind of value against its parser (TextProps.v), then C103; Python's repr of floats is a parameter constrained by shown_float"
},
"C114": {
"how": "validation of the text fails for every property"
},
"C115": {
"how": "induction over the items with C113 for each; followers (border colours, text-align) through the property they follow"
},
"C116": {
"how": "C115 and the congruence of layout in the readings (as C101)"
},
"C117": {
"how": "the printed colour contains blanks; its first word is accepted by no component"
},
"C118": {
"how": "case analysis with the order on rationals, infinities and NaN"
},
"C119": {
"how": "insertion into a sorted list without repetition; keywords compared with the table of every property; two sorted lists with the same members are equal"
},
"C120": {
"how": "induction over the arguments; permutation and order invariants"
},
"C121": {
"how": "Choices.validate on objects with identities, refined to the model without identities"
},
"C122": {
"how": "invariant: below a node without a box all boxes are in their initial state up to origins, kept by edits and by every step of layout; then as C112"
},
"C123": {
"how": "boolean condition on the tree (OkSpec.v) equal to the success of every phase, by induction on the tree"
},
"C124": {
"how": "the condition of C123 mentions no display"
},
"C125": {
"how": "the condition of C123 is kept by layout; then C122"
},
"C126": {
"how": "both layouts equal the reference layout (C112); induction on the path to the block"
},
"C127": {
"how": "every function of the engine reads only the effective part of a style; induction on the recursion"
},
"C128": {
"how": "by C122 every box that takes part shows the values of the reference layout in an area with the width of the parent"
},
"C129": {
"how": "as C128, with the signs of lengths; heights by induction on the tree in the reference layout"
},
"C130": {
"how": "the condition of C123 holds again after layout and says that blocks come first; the boxes by C122"
},
"C131": {
"how": "induction over the change for the reference layout (stacking a list is stacking its beginning first), carried over by C122 and C112"
},
"C132": {
"how": "each laid-out child shows the reference layout of its subtree in an area with the width of its parent; that depends on nothing else"
},
"C133": {
"how": "the reference layout sees the display height only in vh, vmin, vmax and at the root; carried over by C122 and C124"
},
"C134": {
"how": "induction over the path from the root"
},
"C135": {
"how": "first-obstacle function (FaultSpec.v) shown to agree with the outcome of every phase, by induction on the tree (FaultFacts.v)"
},
"C136": {
"how": "corollary of C135: the first obstacle does not mention the display"
},
"C137": {
"how": "the engine written over an abstract arithmetic, function by function; lockstep simulation of the exact, the binary64 and a checked instance that stops where they could differ",
"note": "C138 gives a syntactic condition"
},
"C138": {
"how": "Hoare-style bounds on every box and origin through layout_box, by induction on the depth (EngineFBound.v), then C137",
"note": "boxes left from an earlier layout below a node without a box, percentages, ratios and INHERIT offsets are excluded; C137 covers them"
},
"C139": {
"how": "refinement: each stage of the engine maps a success on the document to the same success on the document in pixels (PixelFacts.v); the reference heights seen during layout are related to the boxes after layout",
"note": "lengths that fail to convert and are never read become 0px"
},
"C140": {
"how": "the simulation of C137 for an arithmetic with float conversions and guarded exact operations, then the refinement of C139 for that arithmetic; a float quotient by 64 is always a multiple of 1/64",
"note": ""
},
"C141": {
"how": "induction over the path for the reference layout: stacking from a lower place moves the whole stack, and the height of a block is that of its last child; carried over by C122 and C112"
},
"C142": {
"how": "induction over the path for the reference layout: two stackings of the same children differ by one vertical move; carried over by C122 and C112"
},
"C143": {
"how": "induction over the path for the reference layout: a box whose outside is unchanged leaves the stacking unchanged; carried over by C122 and C112"
},
"C144": {
"how": "tree induction on the reference layout for two related areas: every used length, width and collapsed margin is k times the other; carried over by C122; success by C123, whose criterion is the same for both documents"
},
"C145": {
"how": "tree induction on the reference layout for two related areas: the width equations are solved by exchanged margins; carried over by C122; success by C123, whose criterion is the same for both documents"
},
"C146": {
"how": "each assignment run from two states which agree on the longhands it sets has the same result up to the numbers of the objects it creates (simulation over the validators and properties); induction over the list against one reference run per item"
},
"C147": {
"how": "inversion and construction lemmas for the digit scanner with underscores, relating it to a grammar of texts; rounding characterised for the whole range, including overflow, and shown to be unique"
},
"C148": {
"how": "equivalence with an inductive relation of texts, by induction over nested values; the texts of the parts a border or outline can hold contain no brace, so str.format() is the identity on them; format strings are split into characters, doubled braces and fields by induction on the text",
"note": "objects made by hand with a brace in a text raise or print something else (C148_example)"
},
"C149": {
"how": "induction over nested values, for arbitrary hash functions of the leaves"
},
"C150": {
"how": "induction over the path to the wrapper for the reference layout: the wrapper's edges are zero, its children are stacked as before but from its own top, and its border box ends where its last child ends; carried over by C112 and C122; success by C123"
},
"C151": {
"how": "the written number by C110; the declaration by the setter and C30/C99 (an equal value keeps a stored unit of the same kind and number); the box by the reference layout (C112, C122) read at that part; the two rounding errors are added"
},
"C152": {
"how": "C87 for the accepted texts; the sign by the comparison of floats; for the properties, is_length is the first validator of each of them"
},
"C153": {
"how": "AxisSpec.v/AxisProps.v: structural induction on the reference layout (C122) for a pair of documents, once per axis; the areas of the containing blocks agree on the axis in question."
},
"C154": {
"how": "AxisProps.v: structural induction on the reference layout under two displays; one lemma for containing blocks of the same width (nothing changes) and one for a containing block t px wider; that the second layout succeeds is C124."
},
"C155": {
"how": "MonoSpec.v/MonoProps.v: induction on the reference layout with a relation between used values that stacking, auto heights and collapsed extents preserve; absolute edges follow by adding up. C155_fraction is the counterexample for fractional margins."
},
"C156": {
"how": "QuoteSpec.v says by characters what a quoted word, a literal without length and a non-literal are; QuoteProps.v evaluates literal_eval's model on each kind, then induction two words at a time."
},
"C157": {
"how": "tree induction on the reference layout: siblings are stacked with gaps that are never negative and an automatic height ends at the last child, so each subtree stays between the border edges of its root; carried over to boxes and absolute coordinates by C112, then induction on the common path"
},
"C158": {
"how": "the same induction for the vertical part; for the horizontal part induction on automatic widths, which leave exactly the margins; carried over by C112"
},
"C159": {
"how": "Induction over the reference layout with the relation 'the containing width is not larger'; the used width is monotone because rounding to the 1/64 px grid, the limits and percentages are (NarrowProps.v)."
},
"C160": {
"how": "The arguments are cut at the commas (split_on_join); int() and float() are described by C147, strip().rstrip('%') by the shape of a percentage, and the division by the correctly rounded conversion (FuncProps.v). The lightness of a text whose saturation overflows is not looked at, as in the code."
},
"C161": {
"how": "RaiseSpec.v lists the cases (raises p v e), with the overflowing texts of FuncSpec.v; RaiseProps.v proves that set_prop raises e exactly in these cases. A text that starts with hsl is either too short or has two delimiters around arguments split at the commas, so C160 decides it."
},
"C162": {
"how": "AnyColorSpec.v: the three forms (color_of) and the overflowing texts. AnyColorProps.v combines C89, C160 and C11 with a case analysis on the beginning of the text, in both directions."
},
"C163": {
"how": "GrammarSpec.v writes the grammar as inductive definitions that call none of the parser's functions. GrammarProps.v proves each parser equivalent to its part of the grammar (units, integer, colour, border_spacing, rect, uri, cursor) and combines them with C103 and C161. Quotes are left out because their parser evaluates Python literals (C156)."
},
"C164": {
"how": "ShortSpec.v describes parts, fitting components and the failing cases with the written grammar of C163 only. ShortProps.v proves that the parser assigns parts to components exactly so (each part fits at most one component) and follows the assignment component by component."
},
"C165": {
"how": "induction over the sides already assigned, using C163 for one side"
},
"C166": {
"how": "refinement: TableSpec.v defines an abstract machine on tables (longhand to value) whose steps use only the written grammar; TableProps.v proves that every operation of the model simulates its step (using the lemmas behind C163-C165, C22, C26), that programs compose, and that every operation that does not assign quotes has a step (C166_total)."
},
"C167": {
"how": "from the table theorem C166 each read after a program equals what the last write means; a stored-value invariant over programs shows that lengths in the store are lengths of the library, for which equality means equal pixels; then the layout simulation behind C92 and C116."
},
"C168": {
"how": "the two roundings are bounded with the relative error and monotonicity of round-to-nearest-even on the model of doubles; the conversion to int is split by whether the result is whole."
},
"C169": {
"how": "induction over the sequence of operations; the mark by the equality test of the setter."
},
"C170": {
"how": "the separators cannot occur in the texts of the numbers, so that the text splits in one way; then injectivity of the texts."
},
"C171": {
"how": "from C32 and the exceptions of the parser of urls."
},
"C172": {
"how": "by cases over the display values."
},
"C173": {
"how": "absolute error bounds for each rounded operation; division by 60 keeps every double in its sector; the hue function is 1-Lipschitz; for whole numbers 255 times a fraction is a multiple of 1/300000 x 255, so the accumulated error cannot cross a half."
},
"C174": {
"how": "a subtree without vertical margins has no collapsed extents (induction); such boxes stack border edge to border edge, so where the next one goes depends only on the sum of the heights; induction over the path; carried over by C112 and C122."
},
"C175": {
"how": "after an empty box the bottom extent is 0, so the next gap is the whole top margin: the difference of the gaps is the overlap; induction over the path as for C141.",
"note": "unlike CSS, where margins collapse through empty blocks"
},
"C176": {
"how": "the trailing children are left out by the reference layout, so the last child contributes an empty box; induction over the path; carried over by C112 and C122, success by C123.",
"note": "a finding: trailing inline content gives the height 0, and later blocks overlap"
},
"C177": {
"how": "what the declarations read as by C166 and C167; values that are equal are lengths of equal size, and the reference layout only uses sizes; then C112 and C122. The written length as C151."
},
"C178": {
"how": "the reference layout read at the part (C112, C122), with the area that the parent hands down; what the declaration reads as by C166/C167; the number by C147; the two rounding errors are added.",
"note": "a finding: percentage heights do not nest"
},
"C179": {
"how": "both modes run the same steps up to the last one; the last step is read off, and setting a content height touches no other attribute."
},
"C180": {
"how": "the effect of an operation (C166) is confined to the longhands it is about, so two independent effects commute; induction on the exchanges; layout by C167."
},
"C181": {
"how": "Rooted.v models layout() of a node with a parent; C181_no_parent: without a parent it is Engine.layout; C181_parent: everything up to the last computation of the height is the same program, which reads the parent only for the content height; C181_height: what that height is."
},
"C182": {
"how": "composition: what a declaration reads is what the engine sees (C99), so the document is plain in the sense of C138 and floats do not matter; exact layout of the declarations is the reference layout of the last writes (C177)."
},
"C183": {
"how": "invariant of the loop (the collected run and the containers so far); the inductive specification determines the list."
},
"C184": {
"how": "invariant of the session: it is a history in the sense of C122 and all boxes are in layout units (C107); so C138 applies to every layout, and C177 gives the page."
},
"C185": {
"how": "Cost.v is the tree-level engine with a counter; C185_same: erasing the counter gives Engine.layout (and reset's literal recursion gives reset); the bound is by induction with the sum of all subtree sizes as potential, which is at most nodes times depth; C185_once: matching lower bound. Examples show that nesting does cost more than a row."
},
"C186": {
"how": "the bound of C138 is proved for the exact operations with any conversion of lengths (EngineFBound.v: gen_checked), used here with the conversion in floats; then C140 gives the document in pixels, which for lengths that are no percentages is the document with converted styles, and C112 its page; C109 the distance."
},
"C187": {
"how": "the escapes are an inductive relation between the characters written and the text (EscapeSpec.v); the reader of the model gives the text of the relation, by induction on it (EscapeFacts.v). A finding: CSS escapes in quotes silently denote other characters. \\\\U and \\\\N and characters beyond Latin-1 are not decided by the model."
},
"C188": {
"how": "the counted layout of C185 (Cost.v); an element's content top is 0 after the reset and the sum of border and padding at the end, so the setters must have changed it, and each change visits all boxes of the subtree, which are consistent with their parents (DepthFacts.v, by induction on fuel and children). For documents of blocks the final insets are those of the reference layout (C128), which gives the sum of the levels, and chains of padded blocks the square."
},
"C189": {
"how": "the words are an inductive relation over the literals of C187 (JoinSpec.v); reading them in the model gives the joined text, by induction on the relation with whatever follows (JoinProps.v). A finding: text without blanks inside the pairs, valid in CSS, is silently misread. Literals in triple quotes, tuples and prefixes are not decided by the model."
},
"C190": {
"how": "two documents related by TradeSpec.v have the same reference layout (C112) up to the border and padding of each side, whose sums agree, by induction on the document; C122 says that the layouts show it"
},
"C191": {
"how": "the layout in floats, the checked one (C138) and one with exact operations and float conversions agree; the last is compared with the exact layout of the converted document function by function; C123 decides success, and a length that converts in floats is measurable"
},
"C192": {
"how": "induction on the document: the reference layout (C112, C122) with a written size is the one without, node by node; C123 decides success, monotonically in what is measurable"
},
"C193": {
"how": "an invariant of every function of the engine: int boxes and whole styles give int boxes; conversions by C03, boxes of earlier layouts by C79"
},
"C194": {
"how": "induction over the document: by C122 the boxes hold the used values of the formatter, and the formatter uses the same values once they are declared in px; success by C123"
},
"C195": {
"how": "every length comes to k times as many px on the finer display, so that the document on the second display is the zoomed document of C144"
},
"C196": {
"how": "induction over the rectangles: the reference layout of the document written for them, then C122; success by C123"
},
"C197": {
"how": "induction over the chain: C73 and C01 for a percentage, the step of C134 for auto; a share of at most 1 of the error so far, plus 1/128"
},
"C198": {
"how": "invariant over the undoing program: each longhand has the old value, or an equal one left from the edits, or none where the initial value is equal; layout by the congruence of C167"
},
"C199": {
"how": "structural induction on two documents over the reference layout, in two containing blocks that differ only in where they start; the width of a block with a declared width is the limited declared width in every branch"
},
"C200": {
"how": "structural induction over the reference layout with the used values of the first document: a size strictly within the limits is the declared one, and the new limits leave it as it is"
},
"C201": {
"how": "induction on the number of items over stacking in the reference layout; equal items in the same containing block are formatted alike"
},
"C202": {
"how": "induction over the document in the reference layout: the top margin of a block is used only when it is stacked, through the maximum with the extent above it, and the children are formatted in the same area"
},
"C203": {
"how": "induction over the document in the reference layout; the extents left by corresponding siblings are equal or both hidden by the next top margin, and last children agree exactly, so heights and extents of parents do"
},
"C204": {
"how": "both runs of the engine proceed in lockstep, by induction on the recursion depth: the tests of the display agree, and where being a block container could differ there are no block-level children or the width has already been refused"
},
"C205": {
"how": "both runs of the engine proceed in lockstep, by induction on the recursion depth; the style height of a containing block is the same or not read by the child"
},
"C206": {
"how": "induction over the document in the reference layout, by cases of display and declared size"
},
"C207": {
"how": "induction over the document in the reference layout: in a row every child is laid out in the same area"
},
"C208": {
"how": "induction over the document in the reference layout: stacking ignores the top margin of the first box"
},
"C209": {
"how": "induction over the document in the reference layout"
},
"C210": {
"how": "induction over the document in the reference layout"
},
"C211": {
"how": "induction over the document in the reference layout"
},
"C212": {
"how": "every box of the reference layout is the layout of its element in the area of its container (as in C207)"
}
}