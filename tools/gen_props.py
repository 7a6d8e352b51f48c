#!/usr/bin/env python3
"""Generates /verif/properties.jsonl (one JSON object per property)."""
import json
P=[]
def p(id,title,statement,quantifier,why,anchors):
    P.append(dict(id=id,title=title,statement=statement,quantifier=quantifier,why_tests_cant=why,anchors=anchors))
SAMPLE="Tests sample a handful of literals; the claim is about every value in the range, and the failures sit at rounding or wrap-around boundaries nobody picks by hand."
p("C01","Micrometer/Millimeter round trip",
 "Converting a length from micrometer to millimeter and back returns exactly the same length, for every length up to 8.19201 m in either direction; one micrometer further it fails.",
 "every int64 length m with |m| <= 8 192 010 um",SAMPLE,
 ["data/data.go: Millimeter.ToMicrometer, Micrometer.ToMillimeter"])
p("C02","Printed coordinates are within 5 um of the requested ones",
 "The X/Y/Z number printed in a G-code move is the requested coordinate rounded to the 0.01 mm grid: it never differs from it by more than 5 um.",
 "every coordinate with |m| <= 32 768 000 um (32.7 m)",SAMPLE,
 ["gcode/builder.go: Builder.AddMoveSpeed","data/data.go: Micrometer.ToMillimeter"])
p("C03","Vector lengths and length comparison",
 "Size() is the Euclidean length rounded down, and ShorterThanOrEqual(l) is true exactly when the Euclidean length is at most l, for 2d points and 3d vectors.",
 "Size: every vector shorter than 2^26 um (67 m); comparison: every vector whose squared length fits in int64 and every length 0 <= l < 3037000500 um",SAMPLE,
 ["data/micrometer.go: microPoint.Size, ShorterThanOrEqual, microVec3.Size, ShorterThanOrEqual"])
p("C04","Vector arithmetic laws",
 "Add and Sub undo each other for all vectors even when int64 wraps around; Div undoes Mul whenever the product fits in int64; PointXY/Add/Sub act coordinate-wise; Max is the largest of the three coordinates.",
 "all pairs of int64 vectors and all factors",SAMPLE,
 ["data/micrometer.go: microVec3.Add, Sub, Mul, Div, Max; microPoint.Add, Sub, Mul, Div"])
p("C05","PerpendicularDistance2 is the squared point-line distance rounded up",
 "For a != b the result d satisfies cross^2 <= d*|ab|^2 < cross^2 + |ab|^2 where cross is the cross product of ab and ap (so d is the true squared distance rounded up to an integer); for a = b it is the squared distance of a and p. For longer lines, where the intermediate square wraps around, it may only be too large.",
 "all points a, b, p in the stated coordinate ranges",SAMPLE+" The intermediate product overflows int64 for lines longer than about 55 mm.",
 ["data/2d.go: PerpendicularDistance2, DotProduct"])
p("C06","DouglasPeucker only drops points near the kept outline",
 "The simplified path is a subsequence of the input with the same first and last point, and every dropped point has a perpendicular distance smaller than epsilon to the line through two consecutive points of the result that enclose it; paths all within sqrt(epsilon - 1) of the line through their ends become that line. The guarantee is lost once squared distances exceed about 3.03e9 um^2 (55 mm): then a whole corner can be dropped.",
 "all paths, all thresholds; coordinates bounded as stated",
 "Needs every path length, every recursion shape and every distance pattern; the wrap-around failure needs a 55-65 mm offset.",
 ["data/2d.go: DouglasPeucker, douglasPeucker, seekMostDistantPoint"])
p("C07","DouglasPeucker memory effects",
 "With Go slices sharing backing arrays, the returned path has the same points as the pure algorithm and no memory outside the given path is written. The caller's own path can, however, be overwritten.",
 "all heaps, all slices in them, every capacity growth policy of append",
 "Aliasing depends on capacities and split positions of all nested calls; a test sees one shape only.",
 ["data/2d.go: douglasPeucker (append(left[:len(left)-1], right...))","gcode/builder.go: AddPolygon"])
p("C08","Path.Simplify removes only vertices it may remove",
 "The simplified polygon is an order preserving selection of the input vertices; paths with at most two points become empty, triangles are returned unchanged; a removed vertex is either almost collinear (5 um) with the last kept vertex and its successor, or both adjacent segments are shorter than the limit with small area error, or its neighbours coincide.",
 "all paths and all limits","Every path length and every removal history must be covered.",
 ["data/layer.go: Path.Simplify"])
p("C09","Bounding boxes are tight",
 "Path.Bounds, Paths.Bounds and PartitionedLayer.Bounds return the smallest axis aligned box containing all (outline) points, and (0,0),(0,0) when there are no points.",
 "all paths of int64 points","All lengths, orders and extreme values.",
 ["data/layer.go: Path.Bounds, Paths.Bounds, partitionedLayer.Bounds"])
p("C10","Micrometer option text round trip",
 "Setting a Micrometer option from its own String() succeeds and gives the same value, for every int64. Accepted texts always give a value in int64 range. A rejected text, however, still overwrites the option.",
 "every int64 value; every text",SAMPLE,
 ["data/option.go: Micrometer.String, Micrometer.Set"])
p("C11","MicroVec3 option text round trip and atomicity",
 "Setting a vector option from its own String() succeeds and gives the same vector; a rejected text leaves the vector unchanged.",
 "every int64 triple; every text",SAMPLE,
 ["data/option.go: microVec3.String, microVec3.Set"])
p("C12","Fan speed option validation",
 "FanSpeedOptions.Set accepts a text only if it is a comma separated list of layer=speed with layer >= 0 and 0 <= speed <= 255; the table then maps each mentioned layer to its last speed and nothing else; a rejected text leaves the table unchanged.",
 "every text","The grammar is infinite: every number of entries, sign, duplicate and malformed piece.",
 ["data/option.go: FanSpeedOptions.Set"])
p("C13","Fan speed option text round trip",
 "Whatever order Go iterates the table in, setting the option from its own String() reproduces the table, for every non-empty valid table.",
 "every non-empty table with valid entries and every iteration order","Go's map order is random; a test sees one order.",
 ["data/option.go: FanSpeedOptions.String, Set"])
p("C14","G-code hunk option text",
 "GCodeHunk.Set keeps exactly the non-blank lines in order; Set(String()) reproduces every hunk with at least two lines, none blank; a hunk with fewer than two lines cannot be set from its own text.",
 "every text, every list of lines","All line counts and contents.",
 ["data/option.go: GCodeHunk.Set, GCodeHunk.String"])
p("C15","Detection of temperature codes in custom G-code",
 "DoesInstructionContainCodes answers true exactly when the first blank separated word of some line contains one of the codes; in particular a commented out code counts.",
 "every list of lines and codes","All lines and positions.",
 ["data/option.go: GCodeHunk.DoesInstructionContainCodes"])
p("C16","Model bounding box and unit conversion on load",
 "Min()/Max() of a loaded model are the tight per-axis minimum/maximum over all vertices of all faces; they fail (panic) exactly for a model without faces; each STL coordinate is converted to the nearest micrometer of its single precision product by 1000.",
 "all non-empty lists of faces","All face counts and orders.",
 ["reader/reader.go: Model.Min, Model.Max, stlTriangleToFace"])
p("C17","Melding moves a vertex at most by the meld distance",
 "Every face of the optimized model is, up to one common translation, a face of the input (in input order) with each vertex moved by at most MeldDistance.",
 "all models (coordinates up to 2^29 um), all positive meld distances","Depends on hash collisions and on the whole history of inserted points.",
 ["optimizer/optimizer.go: optimizer.Optimize"])
p("C18","The optimizer loses no face",
 "Every input face either has an output face with the same melded vertices or two of its vertices were melded into one point.",
 "all models and meld distances","Depends on the whole history of faces.",
 ["optimizer/optimizer.go: optimizer.Optimize"])
p("C19","No degenerate or duplicate faces after optimizing",
 "Every optimized face has three distinct in-range vertices and no two optimized faces have the same set of vertices; each point's face list is exactly the list of faces using it.",
 "all models and meld distances","Invariant over all histories of insertions.",
 ["optimizer/optimizer.go: optimizer.Optimize","optimizer/point.go: point"])
p("C20","Touching faces are exact",
 "For each edge of an optimized face the touching index is another face that contains both points of the edge, and -1 exactly if there is none; if an edge belongs to exactly two faces they name each other. The reported number of open faces is the number of -1 entries.",
 "all models","All adjacency structures.",
 ["optimizer/model.go: getFaceIdxWithPoints","optimizer/optimizer.go: Optimize"])
p("C21","Placement on the build plate",
 "After optimizing, all vertices lie inside the box of the original model's size placed with its bottom at Center.Z and its middle at Center.X/Y (up to 1 um rounding); nothing is below Center.Z, and Size() is the original size.",
 "all models, all centers (no int64 overflow)","All models.",
 ["optimizer/optimizer.go: Optimize (vectorOffset)"])
p("C22","Which points are melded",
 "Two vertices in the same hash cell that are within MeldDistance are never kept as two points at insertion time; near points in different cells are not merged even when 1 um apart.",
 "all insertion histories","Depends on hash cells of all earlier points.",
 ["optimizer/optimizer.go: Optimize (hash)"])
p("C23","Number of layers and slicing safety",
 "For a model standing on z = 0 or lower and at least InitialLayerThickness high, slicing yields (height - initial)/thickness + 1 layers, layer k is cut at initial + k*thickness, and every layer access is in range. A model raised by Center.Z > 0, a model with a vertical gap, or a too thin model makes slicing panic.",
 "all models with faces within the stated z range, all positive thicknesses","All heights/thickness combinations.",
 ["slicer/slicer.go: slicer.Slice"])
p("C24","Each crossed face gives exactly one segment per layer",
 "A face contributes a segment to layer k exactly if it has a vertex strictly below the cutting height and, seen from there, properly reaches it (two vertices at or above, or one strictly above); it never contributes two, and never divides by zero.",
 "all triangles, all heights and thicknesses","All z configurations including vertices exactly on the plane.",
 ["slicer/slicer.go: Slice (switch)","slicer/segment.go: SliceFace"])
p("C25","Segments lie on the cut triangle",
 "Both end points of a segment lie on an edge of the triangle at the cutting height: inside the edge's bounding box and within 1 um of the exact intersection in each coordinate.",
 "all triangles with coordinates up to 2^30 um and all z","Rounding of every division.",
 ["slicer/segment.go: SliceFace"])
p("C26","Neighbouring faces meet",
 "If two consistently oriented faces share an edge that is cut, the end point of one segment and the start point of the other are at most 1 um apart in each coordinate.",
 "all pairs of oriented triangles sharing an edge, all z","Rounding in both orders and all 9 vertex numberings.",
 ["slicer/slicer.go: Slice","slicer/segment.go: SliceFace"])
p("C27","Polygon building terminates and uses each segment once",
 "makePolygons terminates for every layer; before snapping, the generated chains partition the segments: each segment's end point appears in exactly one chain. Joining then partitions the chains, and leaves no two open pieces that could still be joined.",
 "all segment lists, all adjacency information, all snap distances","Termination and exactly-once need all graphs.",
 ["slicer/layer.go: makePolygons"])
p("C28","Kept polygons are closed and not tiny",
 "Every polygon of a layer ends within max(MeldDistance, JoinPolygonSnapDistance, FinishPolygonSnapDistance) of its start, is longer than FinishPolygonSnapDistance, and consists only of segment end points.",
 "all segment lists and snap distances","All graphs and joins.",
 ["slicer/layer.go: makePolygons"])
p("C29","Gaps are bridged only within the snap distances",
 "Two consecutive points of a kept polygon are either the two ends of a cut segment (up to MeldDistance at its start) or at most JoinPolygonSnapDistance apart.",
 "all segment lists and snap distances","All join orders.",
 ["slicer/layer.go: makePolygons"])
p("C30","Closed manifolds give closed outlines",
 "If the touching information describes a closed oriented surface, no vertex lies exactly on the plane and the start points of different segments are more than 2*MeldDistance apart, every chain closes: nothing has to be snapped or removed as open, and the polygons are exactly the chains longer than FinishPolygonSnapDistance.",
 "all closed oriented surfaces","All surfaces.",
 ["slicer/layer.go: makePolygons"])
p("C31","Clipping trees become layer parts without loss",
 "Every contour of a clipping result tree appears exactly once, as an outline if its nesting depth is even and as a hole of its parent's part if it is odd.",
 "all trees of any depth and width","All tree shapes.",
 ["clip/clip.go: polyTreeToLayerParts"])
p("C32","Number and offsets of insets",
 "Inset performs exactly insetCount offsets of the original part, the k-th with initialOffset - k*offset; InsetLayer gives one result per part in order.",
 "all counts, offsets and parts; any offsetting library","All counts.",
 ["clip/clip.go: Inset, InsetLayer"])
p("C33","OffsetResult traversal",
 "ForEach visits exactly the parts of ToOneDimension, in the same order, with the right indices, and stops right after the first callback that returns true.",
 "all nested results and all callbacks","All nestings and stop points.",
 ["clip/clip.go: OffsetResult.ForEach, ToOneDimension"])
p("C34","Infill line grid",
 "For a positive line distance the generated lines start at the left bound, are exactly lineDistance apart, never exceed the right bound and leave no strip wider than lineDistance; the loop does not terminate for line distance 0, and for a negative one not before the coordinate leaves the int64 range (e.g. infill percent > 40000 or negative).",
 "all bounds and line distances","Termination and coverage for every width.",
 ["clip/linear.go: getInfill","goslice.go: NewGoSlice (lineWidth)"])
p("C35","Infill sorting keeps every line exactly once",
 "sortInfill never panics on two point lines, outputs every input line exactly once (alternately reversed) and otherwise only connection lines, which are added only in zig-zag mode, join the end of one line with the start of the next, do not cross a perimeter and are at most lineWidth + 2*lineDistance long.",
 "all lists of lines","Every number and arrangement of lines.",
 ["clip/linear.go: sortInfill"])
p("C36","Shortening of zig-zag lines",
 "Shortening keeps x coordinates and keeps the line inside its original extent for lines longer than lineWidth/2; a line between lineWidth/2 and lineWidth long is turned around instead of being left alone.",
 "all lines and line widths",SAMPLE,
 ["clip/linear.go: getInfill (smallerLines)"])
p("C37","Fill does not modify the part and alternates direction",
 "Filling a part leaves its outline and holes unchanged in memory, and with rectlinear the rotation differs by 90 degrees between even and odd layers only.",
 "all parts, layers, patterns","Slices are shared by reference; all shapes.",
 ["clip/linear.go: Fill"])
p("C38","Emitted moves always leave the printer where the builder thinks it is",
 "Running the emitted G-code text on a printer model from any start state, after every builder call sequence with at least one emitted move, the printer's X/Y/Z, feedrate and E are the printed values of the builder's current position, speed and extrusion amount: skipping unchanged words and zero moves never loses a move.",
 "all sequences of builder calls, all initial printer states","All histories; an omitted word shows only after a specific earlier history.",
 ["gcode/builder.go: AddMoveSpeed, AddMove, AddPolygon"])
p("C39","AddPolygon traces exactly the simplified polygon",
 "The printing moves of AddPolygon visit exactly the vertices of the simplified polygon in order at height z, and return to the first one exactly if the polygon is not open; an empty polygon produces nothing.",
 "all polygons, layers, heights and builder states","All polygons and states.",
 ["gcode/builder.go: AddPolygon"])
p("C40","Retraction is balanced and protects travel",
 "If the travel to a polygon crosses a perimeter (and retraction is enabled) the filament is retracted once before it and pushed back once after it, nothing is printed in between, and with z-hop the whole XY travel happens at z + hop and the nozzle is back at z before printing; otherwise no retraction occurs. The E counter returns to its old value up to float32 rounding. If no move has been made yet, the retraction itself sends the nozzle to the origin.",
 "all polygons, states, hop heights, crossing answers","All states.",
 ["gcode/builder.go: AddPolygon"])
p("C41","Speed selection",
 "Travel moves use the move speed, printing moves the override speed if it is positive and the extrude speed otherwise, retractions the retraction speed.",
 "all states and moves","All histories of speed changes.",
 ["gcode/builder.go: AddMove, SetExtrudeSpeedOverride, DisableExtrudeSpeedOverride"])
p("C42","Extrusion counter",
 "The E value never decreases while printing polygons without retraction (non-negative extrusion per mm), but because it is accumulated in single precision an extruding move can leave E unchanged on long prints.",
 "all moves and counter values",SAMPLE,
 ["gcode/builder.go: AddMoveSpeed (extrusionAmount)"])
p("C43","Custom G-code lines are emitted verbatim",
 "AddCommand/AddComment without arguments append the given line unchanged followed by a newline if it contains no percent sign. A percent sign starts a format directive, so such a line is altered (a trailing one even swallows the next move); doubling every percent sign yields the intended text.",
 "all texts","All texts.",
 ["gcode/builder.go: AddCommand, AddComment"])
p("C44","Generator order, heights and error handling",
 "Generate calls every renderer for every layer, layers ascending and renderers in registration order, with z = initial + layerNr*thickness; the first error stops it and discards all G-code; an earlier Generate call does not influence a later one.",
 "all renderer lists, layer lists and renderer behaviours","All counts and failing positions.",
 ["gcode/generator.go: generator.Generate"])
p("C45","Perimeter print order",
 "For each part every inset is printed exactly once, inner insets first in increasing order and the outer perimeter last; holes of a part are printed before its outline.",
 "all perimeter structures","All inset counts.",
 ["gcode/renderer/perimeter.go: Perimeter.Render"])
p("C46","Outer perimeter speed",
 "Outer perimeters are printed with OuterPerimeterSpeed and inner ones with LayerSpeed (above the first layer). The outer speed is not restricted to outer perimeters: infill printed after them uses it too.",
 "all layers and options","All layer contents.",
 ["gcode/renderer/perimeter.go: Perimeter.Render","gcode/renderer/layer.go: PreLayer.Render","data/option.go: PrintOptions.OuterPerimeterSpeed"])
p("C47","First layer settings",
 "Everything printed on layer 0 uses the initial layer speed and the extrusion amount for the initial thickness; everything on later layers uses the amount for the normal thickness and no override.",
 "all layer lists and options","All renderer outputs and layer counts.",
 ["gcode/renderer/layer.go: PreLayer.Render","gcode/builder.go: SetExtrusion"])
p("C48","Safe start and stop G-code",
 "With ForceSafeStartStopGCode the G-code before the first move contains a hot end heating command (and a bed one with a heated bed) or the custom start code has a line whose first word contains such a code; likewise for switching off at the end, before the custom end code. A commented out code defeats it.",
 "all custom codes and options","All texts.",
 ["gcode/renderer/layer.go: PreLayer.Render, PostLayer.Render"])
p("C49","Fan table and temperature change",
 "A fan command is emitted exactly at the layers in the fan table with the configured speed; the temperature change is emitted exactly once, at layer InitialTemperatureLayerCount, if that layer exists - including a bed command even without heated bed.",
 "all tables, layer counts and options","All layers.",
 ["gcode/renderer/layer.go: PreLayer.Render"])
p("C50","Temperature placeholders",
 "Every occurrence of the temperature placeholders in the start G-code is replaced by the configured initial temperatures, no placeholder remains, and text without placeholder is unchanged.",
 "all texts and temperatures","All positions and overlaps.",
 ["gcode/renderer/layer.go: PreLayer.Render"])
p("C51","Skirt and brim only on the first layer",
 "Skirt lines are produced only on layer 0 and only if SkirtCount != 0; the brim modifier changes only the attributes of layer 0 and nothing if BrimCount = 0. Otherwise each outermost contour of the first layer's perimeters gets BrimCount lines, one extrusion width apart, the first one extrusion width away from the contour. With BrimCount != 0 and no layers the brim modifier panics.",
 "all layers, options and clipping results","All layers.",
 ["gcode/renderer/skirt.go: Skirt.Render","modifier/brim.go: brimModifier.Modify"])
p("C52","Modifiers keep the sliced geometry",
 "All built in modifiers keep the number of layers and every layer's parts; they only add or replace attributes.",
 "all layer lists, options and clipping results","All layers.",
 ["modifier/*.go: Modify","modifier/modifier.go: newExtendedLayer"])
p("C53","Perimeter attribute structure",
 "After the perimeter modifier each layer has one perimeter entry per part with exactly InsetCount insets, and one overlap entry per part; InsetCount <= 0 panics on the first non-empty layer.",
 "all layers and inset counts","All layers.",
 ["modifier/perimeter.go: perimeterModifier.Modify"])
p("C54","Solid bottom and top",
 "Given exact polygon clipping, any point of the innermost perimeter of a layer that is not covered by one of the NumberBottomLayers layers below (or lies on the lowest layers) is in the bottom infill if the overlap border contains it, provided the pieces of that exposed area do not overlap each other after they are enlarged by the internal overlap; likewise for top unless it is already bottom. Without additional overlap only such points become solid. Without the proviso the claim is false for the default options: enlarged pieces of one part cancel each other out where they overlap.",
 "all layer stacks, any exact clipping library","All stacks and counts.",
 ["modifier/infill.go: infillModifier.Modify"])
p("C55","Infill areas neither overlap nor leave gaps",
 "Given exact polygon clipping, bottom, top and internal infill are pairwise disjoint and internal infill together with bottom and top covers the whole area inside the overlap border (if InfillPercent != 0).",
 "all layers, any exact clipping library","All areas.",
 ["modifier/infill.go: Modify","modifier/internal_infill.go: Modify"])
p("C56","Infill on every layer",
 "Layers up to the first layer without parts get their infill attributes; from the first empty layer on, no layer gets top, bottom or internal infill.",
 "all layer lists","All positions of empty layers.",
 ["modifier/infill.go: Modify","modifier/internal_infill.go: Modify"])
p("C57","Support keeps its distance to the model",
 "Given exact clipping, the generated support of each layer below the second highest does not intersect the parts of that layer, nor their surroundings of half the support gap, provided these surroundings do not overlap each other. Without the proviso the claim is false: where the surroundings of two parts overlap, they cancel each other out and support is generated, even inside of the model.",
 "all layer stacks and options","All stacks.",
 ["modifier/support.go: supportGeneratorModifier.Modify"])
p("C58","Support reaches down",
 "Given exact clipping, the support of layer n consists exactly of the points supported on layer n+1 and the points detected as needing support on layer n, without the model of layer n enlarged by half of the gap. So an overhanging point is supported on every layer from TopGapLayers below it down to the first layer where the model is near.",
 "all layer stacks and options","All stacks.",
 ["modifier/support.go: supportGeneratorModifier.Modify"])
p("C59","Support interface partition",
 "Given exact clipping, interface and normal support of a layer are disjoint and together are the support outside of the brim; a point is interface exactly if there is no support InterfaceLayers above it. With InterfaceLayers = 0 everything becomes interface.",
 "all layer stacks and options","All stacks.",
 ["modifier/support.go: supportGeneratorModifier.Modify"])
p("C60","Support detection and top gap",
 "With support enabled, the overhang of layer k+1 is stored on layer k - TopGapLayers for exactly the layers TopGapLayers <= k <= last-1, all other layers keep their attributes; disabled support changes nothing.",
 "all layer stacks and options (TopGapLayers >= 0)","All stacks.",
 ["modifier/support.go: supportDetectorModifier.Modify"])
p("C61","Process writes only complete G-code",
 "Process calls reader, optimizer, slicer, modifiers (in order), generator, writer; it writes exactly once, exactly the generator's output, only if no earlier stage failed, to OutputFilePath or else InputFilePath + \".gcode\"; the first error is returned unchanged and stops everything.",
 "all handler behaviours (any stage may fail)","All failing stages.",
 ["goslice.go: GoSlice.Process"])
p("C62","Reading errors",
 "A missing input file is reported as an error and nothing is written. A file without readable triangles is not reported: Process panics before anything is written. Errors in the middle of a file are dropped: Process does exactly what it does for a file of only the triangles before the error.",
 "all file contents and reader results, options and libraries","All failure modes.",
 ["reader/reader.go: reader.Read","goslice.go: Process"])
p("C63","Writing the result",
 "If Write reports success the file contains exactly the G-code, otherwise it reports an error; if the file cannot be created nothing is changed; at every crash point the file holds its old content or a prefix of the new one and no other file is touched; an operating system without errors makes Write succeed. The old file is not kept if writing fails.",
 "all contents, partial writes, errors and crash points","Crash points.",
 ["writer/writer.go: writer.Write"])
p("C64","A whole print is executed as planned",
 "Every polygon the renderers print is executed by a printer reading the G-code text as the moves that were asked for, from wherever the nozzle and extruder are at that time, and whatever the printer did before the print, because the start code resets the extruder.",
 "all options, layers, libraries, printer histories","All prints.",
 ["gcode/generator.go: Generate","gcode/renderer/*.go: Render","gcode/builder.go: AddPolygon"])
p("C65","Everything of a layer is printed at its height",
 "Every polygon printed for layer n has the height InitialLayerThickness + n*LayerThickness.",
 "all options, layers and libraries","All layer counts.",
 ["gcode/generator.go: Generate","gcode/renderer/*.go: Render"])
p("C66","Generating fails only if the geometry fails",
 "If attributes have their types and infill and skirt geometry can be computed for every layer, generating G-code succeeds unless the clipping library fails.",
 "all options, layers and libraries","All failing points.",
 ["gcode/generator.go: Generate","gcode/renderer/*.go: Render"])
p("C67","Perimeters and infill stay inside the model",
 "Given exact polygon clipping, every perimeter, and every point of bottom, top and internal infill of a layer lies inside that layer's parts.",
 "all layer stacks, options and exact clipping libraries","All stacks.",
 ["modifier/perimeter.go: Modify","modifier/infill.go: Modify","modifier/internal_infill.go: Modify"])
p("C68","Perimeters and infill never fail",
 "With an exact clipping library and at least one inset, the perimeter, infill and internal infill modifiers return no error and do not panic for any stack of layers, including empty layers.",
 "all layer stacks and options","All stacks.",
 ["modifier/perimeter.go: Modify","modifier/infill.go: Modify","modifier/internal_infill.go: Modify"])
p("C69","Overhangs are detected",
 "Given exact clipping, every point of a layer that lies outside of the layer below enlarged by half of d = LayerThickness * tan(ThresholdAngle) is detected as needing support, provided the detected pieces do not overlap each other after they are enlarged. Without the proviso the claim is false for default options, and with d instead of d/2 the converse is false: layers that nowhere reach further out than d get support too.",
 "all layers, options and exact clipping libraries","All layers.",
 ["modifier/support.go: supportDetectorModifier.Modify"])
p("C70","Generating support never fails",
 "With an exact clipping library, well typed attributes and InterfaceLayers >= 0 the support generator neither fails nor panics, for any number of layers.",
 "all layer stacks and options","All stacks.",
 ["modifier/support.go: supportGeneratorModifier.Modify"])
p("C71","Exit code",
 "If the program, not asked for its version, exits with code 0, the output file holds the complete generated G-code. Every error or panic gives another exit code.",
 "all inputs, options, operating system answers","All failures at any stage.",
 ["cmd/goslice/main.go: main","goslice.go: Process"])
p("C72","Layer parts are the cut through the model",
 "Given exact polygon clipping, slicing returns one layer per layer height. The parts of a layer do not overlap, their holes lie inside, and together they cover exactly the points the layer's joined polygons surround an odd number of times. With such a library slicing fails only if the polygons cannot be built.",
 "all models, options and exact clipping libraries","All models.",
 ["slicer/slicer.go: Slice","clip/clip.go: GenerateLayerParts"])
p("C73","Connected models are sliced",
 "A model with a face at the height of every layer is sliced without error into the number of layers its height asks for. So is a model whose faces are connected over common corners, and which reaches from the first layer height to the last. Reaching the last layer is needed: melding may lower the top of a closed connected model, and then slicing panics with the default options.",
 "all models and options","All models.",
 ["slicer/slicer.go: Slice","optimizer/optimizer.go: Optimize"])
p("C74","A run works exactly if all its stages do",
 "Processing a file with the built in stages ends without error if and only if reading, optimizing, slicing, the six modifiers in their order, generating, each working on the result of the one before, and writing the generated text all do.",
 "all files, options, clipping libraries and operating system answers","All combinations of failures.",
 ["goslice.go: NewGoSlice, Process"])
p("C75","Infill density",
 "For extrusion widths up to 1 cm and a positive percentage, the internal infill lines have the distance 10 mm divided by the number of whole extrusion widths in 10 mm times the percentage, rounded down to a micrometer: the pattern is never denser than asked for except for that last rounding, more than half as dense, and exactly as dense where the divisions are exact. It is not the asked density for widths which do not divide 10 mm; for widths above 10 mm, or percentages so high that the distance becomes 0, filling does not end.",
 "all extrusion widths and infill percentages","The distance goes through float64 divisions and two roundings; the boundary cases are far from the defaults.",
 ["goslice.go: NewGoSlice","clip/linear.go: NewLinearPattern, getInfill"])
p("C76","Filling succeeds",
 "Filling any part with lines at a positive distance ends without error and without panic, and gives lines of two points each, for any rotation, bounding box within 4 m and widths up to 268 m, provided that the clipping library cuts upright lines into pieces of them.",
 "all parts, patterns, layers, and all clipping libraries which cut lines","All parts and rotations, rounding of the rotated points.",
 ["clip/linear.go: Fill, getInfill, sortInfill","data/micrometer.go: Rotate"])
p("C77","A sensible run succeeds",
 "With workable settings, an exact clipping library and an operating system which takes the file, every model file whose optimized faces lie within 2 m of the origin and meet the height of every layer (as connected faces do that reach from the first to the last layer) is turned into G-code and written: Process returns no error and does not panic.",
 "all such files, options, exact clipping libraries and operating systems","A single statement over the whole program and every such model.",
 ["goslice.go: NewGoSlice, Process"])
p("C78","Millimeter options mean what they say",
 "A decimal text given for a millimeter option is read as the nearest float32. A whole number of micrometers written in millimeters (any number of leading or trailing zeros, up to 8.19 m) becomes exactly that many micrometers, and the text shown for it reads back as the same value. Texts with other characters (blanks, commas, units) are rejected. NaN and infinities are accepted; the texts read as infinite are exactly the words inf and infinity in any case, with or without a sign.",
 "all texts, all numbers of digits, all lengths up to 8.19 m","Correct rounding of arbitrary decimal texts cannot be tested exhaustively.",
 ["data/option.go: Millimeter.Set, Millimeter.String","data/data.go: Millimeter.ToMicrometer"])
p("C79","Every flag sets its option and nothing else",
 "If a command line is accepted, its words are flags (long with = or a following word, switches, bundles of letters) and operands in exactly one way; every option has the value of the last text given for its flag and otherwise its default; giving a flag its default is the same as leaving it out; the first operand is the input file. Conversely every such command line with acceptable values is accepted. A word behind a switch is not its value (--infill-zig-zag false slices a file called false).",
 "all lists of command line words, all 45 flags","All combinations and spellings of 45 flags.",
 ["data/option.go: ParseFlags"])
p("C80","Exit codes of the program",
 "The exit code is 2 for a command line with an unknown flag or an unacceptable value, 0 if the version was asked for, 1 without an input file, and otherwise 0 exactly if the process succeeded with the parsed options and 2 if it returned an error or panicked.",
 "all command lines, files, operating system answers and clipping libraries","Holds for every command line and every behaviour of the process.",
 ["cmd/goslice/main.go: main","data/option.go: ParseFlags"])
p("C81","A run prints walls and infill inside the model only",
 "Given exact polygon clipping, every wall printed by a finished run in layer n is a closed contour of a part, and every infill line printed there is made for a part, which covers only points that the polygons cut through the model at the height of layer n surround an odd number of times. Only support lines, brim and skirt belong to areas outside. The written text is exactly the text of these calls.",
 "all finished runs: all files, options, libraries","A statement about every point of every layer of every print.",
 ["goslice.go: Process","modifier/perimeter.go: Modify","modifier/infill.go: Modify","modifier/internal_infill.go: Modify","gcode/generator.go: Generate"])
p("C82","Number and heights of the printed layers",
 "A finished run prints n layers, where initial thickness + (n-1) * thickness is at most the height of the model and initial thickness + n * thickness is above it. The text has exactly the marks of the layers 0 to n-1 in this order between start and end code, and everything of layer k is printed at the height initial thickness + k * thickness, never above the model.",
 "all finished runs","All models and thicknesses, through slicing, six modifiers and twelve renderers.",
 ["goslice.go: Process","slicer/slicer.go: Slice","gcode/generator.go: Generate","gcode/renderer/layer.go: Render"])
p("C83","The program works",
 "Called with any command line that can be read and names a file, with workable settings and a model as in C77, the program exits with code 0.",
 "all such command lines, files and exact clipping libraries","A single statement over the whole program.",
 ["cmd/goslice/main.go: main","goslice.go: Process"])
p("C84","Travels are retracted exactly when they leave the printed parts","A travel line counts as crossing a perimeter of a layer exactly if some point of the line is not covered by the parts of the layer, holes included; so before each polygon that is printed within a layer the filament is retracted exactly if retraction is configured and the straight way there leaves the layer's parts, and never for polygons printed without a layer (skirt and brim). In a finished run this holds for every polygon of the program, with the layer given by the polygons cut from the model.","every clipping library that cuts closed and open paths exactly, every list of properly nested parts, every position and target; every finished run","a test checks a few lines against a few squares; whether a travel across a hole, along a border or over a second part is recognised depends on all parts at once",["clip/clip.go:IsCrossingPerimeter","gcode/builder.go:AddPolygon"])
p("C85","Infill lines are exactly the grid inside the part","The lines that fill a part, turned by the angle of the layer, lie inside the turned part without its holes; without zig-zag they cover exactly the points of the part on the upright grid lines which start at the left of the turned bounds and are one line distance apart. If the pattern is not turned they lie inside the part itself.","every exact clipping library, pattern within the bounds of C77, layer number and part","a test fills one shape and compares the result; that no line is lost, added or led through a hole for any shape needs the cut to be taken over outline and holes together",["clip/linear.go:Fill","clip/linear.go:getInfill"])
p("C86","Brim and skirt surround the first layer","The outermost contours of the walls lie apart from each other. Around a first piece of a wall of the first layer, if each other one lies apart from it or strictly inside of it, the brim has BrimCount lines that each go around the whole piece, and the area of the brim contains it. Each loop of the skirt goes around everything that the walls and the support of the first layer surround, and around every line of the brim. It is not true that every piece of every outer wall gets a brim: where a part falls apart when it is shrunk by half a line, only the first piece gets one.","every exact clipping library whose hulls surround their contours and which grows bigger contours further, every first layer, brim count, skirt count and distance","a test looks at one shape; that nothing of the first layer lies outside of the loops must hold for every arrangement of parts and supports",["modifier/brim.go:Modify","clip/clip.go:TopLevelPolygons","clip/clip.go:Hull","gcode/renderer/skirt.go:Render"])
p("C87","The exported model is the optimized model","If the model and the center of the build plate lie within some meters, the triangles of the debug STL export of the optimized model, read again by the reader, are exactly the faces of the optimized model: all of them, in order, each with the same three points; and the export fails only if writing the file fails.","every model, meld distance and center within the bounds","a test exports one model; whether a coordinate survives two conversions between micrometer integers and 32 bit millimeters depends on the coordinate",["optimizer/model.go:SaveDebugSTL","reader/reader.go:stlTriangleToFace","data/data.go:ToMillimeter"])
p("C88","Lines are extruded with the filament of their volume","The amount of filament commanded for a line differs by at most 5 millionths from the filament with the volume of the line: length times layer thickness times extrusion width times extrusion multiplier, divided by the area of the filament. Along every polygon of a print the printed E value grows by the filament for its outline with the thickness of its layer, up to this, half a unit in the last place of the counter per line, and the printed digits. It is false that every line is extruded whatever was printed before: after 20 m of filament the 32 bit counter does not grow by short lines.","all polygons of all prints with options up to 1 m and lines up to 33 m","Rounding of every combination of lengths and settings; errors sum up over arbitrarily many lines.",["gcode/builder.go: SetExtrusion, AddMove, AddPolygon","data/micrometer.go: SizeMM, ToMillimeter","gcode/renderer/layer.go: Render"])
p("C89","What is filled with which lines",
 "In every layer of a print the areas are filled in the order support, support interface, bottom, top, inside, and each part of an area with the lines for its kind: support with zig-zag lines at 90 degrees whose distance is the support pattern spacing, support interface with zig-zag lines at 0 degrees whose distance is the extrusion width, bottom and top with plain lines whose distance is the extrusion width, the inside (only if the infill percentage is not 0) with lines whose distance follows from the percentage and which are zig-zag if so configured. Bottom, top and inside are turned by the configured angle, by 90 degrees more in every second layer. The lines are exactly what the grid of upright lines starting at the left side of the turned box of the model (for support enlarged by the spacing on every side) shares with the turned part; in zig-zag they lose half a width at both ends, and all other lines are short connections inside the part.",
 "every print whose options are workable, every layer, every part, every clipping library that cuts lines exactly",
 "The pattern, its angle, box, distance and zig-zag mode depend on all options and the layer number, and the pieces on the shape of every part; tests look at a few shapes.",
 ["gcode/renderer/infill.go: Render","clip/linear.go: Fill, getInfill, sortInfill","goslice.go: NewGoSlice"])
p("C90","The outlines of a layer are the cross section of the body",
 "For a model that is closed and consistently oriented after its points were melded, the outlines found in a layer surround (even-odd) exactly the points that lie inside the body at the height of the layer, where a point is inside if a ray from it hits the surface an odd number of times. The only points this does not decide are those closer than 1.42 um to the surface. Only outlines not longer than the finish distance are dropped.",
 "every closed model within the coordinate range, every layer height without a corner of the model on it, every point of the plane away from the surface, provided segments of touching triangles that do not belong together are further apart than the meld distance",
 "Inside and outside depend on the chaining of all segments of a layer; a test compares a few areas of a few shapes.",
 ["slicer/slicer.go: Slice","slicer/segment.go: SliceFace","slicer/layer.go: makePolygons"])
p("C91","The parts of a layer cover the cross section of the body",
 "Simplifying a polygon changes what it surrounds only within the triangles it cuts off or fills, and each of them is less than 5 um thick or has two sides shorter than 10 um. Together with exact clipping, the parts of a layer cover exactly the points inside the body at the height of the layer, apart from points closer than 1.42 um to the surface, from outlines not longer than the finish distance and from those triangles.",
 "every polygon with coordinates in the printable range; every closed model as in C90, every layer, every point, every clipping library that is exact for the points considered",
 "It must hold for every shape and every point of every layer; tests look at the points of a few polygons.",
 ["data/layer.go: Path.Simplify","slicer/slicer.go: Slice","clip/clip.go: GenerateLayerParts"])
p("C92","What is switched off has no influence",
 "Two sets of options that differ only in settings of features which are switched off give the same G-code, or both give none: the support settings if support is off, the skirt distance without skirt loops, the infill zig-zag without infill, the infill rotation without infill and solid layers, the additional overlap without solid layers, retraction speed, length and hop if one of speed and length is zero, whether the bed is heated without the safe start and stop. File paths in the options do not matter either.",
 "every model, every pair of such options, every clipping library",
 "Every setting is read in several places; that none of them leaks into the output while its feature is off has to be checked for all inputs and all other settings.",
 ["goslice.go: NewGoSlice, Process","modifier/support.go: Modify","modifier/infill.go: Modify","gcode/renderer/skirt.go: Render","gcode/builder.go: AddPolygon"])
p("C93","Speeds, temperatures and filament do not change the path of the nozzle",
 "If two sets of options agree in everything but speeds, temperatures, fan, filament diameter, extrusion multiplier, heated bed, safe start and stop, retraction speed and length (retraction on or off for both) and file paths, and the start code lines filled with the two temperatures move the printer in the same way, then one of them gives a print exactly if the other does, and a printer executing the two prints visits the same positions in the same order.",
 "every model, every pair of such options, every clipping library, every state of the printer at the start",
 "Moves are left out when position and extrusion are unchanged and extrusion depends on the settings, so the texts differ in many lines; only the sequence of positions is the same, for every model.",
 ["gcode/builder.go: AddMoveSpeed, AddPolygon","gcode/renderer/layer.go: PreLayer, PostLayer","gcode/renderer/perimeter.go: Render"])
p("C94","Faces that add nothing to the model have no influence on the print","If a model file repeats a face (its three points in any order) or contains a face two points of which coincide, and the points of that face occur in earlier faces, then leaving any number of such faces out changes nothing: the optimized model is the same in every detail (points, faces, neighbours, size, number of open edges) and a run ends with the same G-code.","every sequence of faces, every position and number of repeated or collapsed faces, every meld distance from 1 to 2^31-1 micrometers, every center, every options, every clipping library","which faces are recognised as repetitions depends on the numbering of all earlier points and on the face lists of three points; tests repeat one face of one model",["optimizer/optimizer.go:optimizer.Optimize","optimizer/model.go"])
p("C95","Where the model lies in its file does not matter","If different vertices are further apart than the meld distance, moving the whole model by any vector gives the same optimized model, placed at most one micrometer further in x and y (not at all if the middle of the model is a whole micrometer or does not pass the origin), and in the second case a run ends with the same G-code. Without that distance it does matter: close vertices are melded or not depending on the position.","every model with coordinates up to 2^29 micrometers before and after the move, every vector, every meld distance and center, every options, every clipping library","the points are looked up in a hash grid fixed to the origin and the middle is rounded toward zero, so the equality has to be shown across different hash cells for every vector",["optimizer/optimizer.go:optimizer.Optimize","reader/reader.go:model.Min","reader/reader.go:model.Max"])
p("C96","What a layer is printed with depends on nearby layers only",
  "For every clipping library and all settings: the walls and the infill of a layer depend only on the outlines of that layer, of as many layers below as there are solid bottom layers, of as many layers above as there are solid top layers, and on whether some layer below has no outlines. In two runs without support, for models with the same extent in x and y that agree around a layer, this layer is printed with the same polygons and lines, however different and however high the models are elsewhere.",
  "all libraries, settings, stacks of layers, layer numbers and pairs of models",
  "Independence from far away layers is a statement about pairs of arbitrary stacks; a test can only compare some pairs.",
  ["modifier/perimeter.go:perimeterModifier.Modify","modifier/infill.go:infillModifier.Modify","modifier/internal_infill.go:internalInfillModifier.Modify","modifier/brim.go:brimModifier.Modify"])
p("C97","More walls leave the outer walls as they are",
  "Raising the number of walls with the same extrusion width only adds walls inside: for every layer and every part the walls of the smaller number are exactly the first walls of the larger number, whatever the other settings are, and there are exactly as many walls as asked for.",
  "all libraries, pairs of settings with the same extrusion width, stacks of layers",
  "Relates two runs for arbitrary outlines and arbitrary numbers of walls.",
  ["modifier/perimeter.go:perimeterModifier.Modify","clip/clip.go:clipperClipper.InsetLayer","clip/clip.go:clipperClipper.Inset"])
p("C98","Turning points is turning, and turning back restores them",
  "Turning a path by a whole number of degrees about the origin gives for every point the truly turned point (x cos a - y sin a, x sin a + y cos a), each coordinate off by at most half a micrometer (and a thousandth for the arithmetic).  Turning a path and turning it back moves every point by at most one micrometer in x and in y.  The only requirement is that the sine and cosine of the math library are within 2^-40 of the true ones.",
  "all paths with coordinates up to 16 m (4 m for turning back), all angles up to 1024 degrees, all math libraries of that accuracy",
  "A statement about real numbers, pi, sine and cosine and five roundings for every point and angle.",
  ["data/micrometer.go:microPoint.Rotate","data/layer.go:Path.Rotate","data/2d.go:ToRadians"])
p("C99","Infill lines have the asked direction and distance",
  "Without zig-zag all lines that fill a part are parallel to one direction and lie on a grid of the given line distance: turning the ends of a line by the rotation angle (90 degrees more on every other layer) puts both on the same upright line left + k * distance, off by at most 0.71 micrometer, where left is the left side of the turned box around the model.",
  "all parts, layers, line distances, angles up to 512 degrees, boxes up to 4 m, clipping libraries that cut lines into pieces and math libraries with accurate sine and cosine",
  "Real geometry for every angle; a test compares a few lines of a few angles.",
  ["clip/linear.go:linear.Fill","clip/linear.go:linear.getInfill","data/layer.go:Path.Rotate"])
p("C100","A model with vertices further apart than the meld distance is kept exactly",
  "If all different vertices of a model are further apart than the meld distance, the optimized model is the given model moved to the middle of the plate: its faces are faces of the moved model, in their order, and every face with three different corners is still there, at most one time per set of three corners.  No face is bent, turned over or lost.",
  "all models with coordinates up to 2^29 micrometers, all meld distances and plate centers",
  "The melding hashes, the bucket order and the duplicate search depend on every vertex and face; a test sees a few models.",
  ["optimizer/optimizer.go:optimizer.Optimize","optimizer/model.go:optimizedModel","data/model.go:OptimizedModel"])
p("C101","goslice FILE prints the model in the file",
  "Called with the name of a file only, the program exits with 0 for every model within 1 m of the origin that has a face at every height from its lowest to its highest vertex (every model of one piece does), whose vertices are more than 30 micrometers apart, whose faces have three different corners and which is at least 0.2 mm high (conditions on the file only, nothing about the inner workings), if the operating system reports no error.  Afterwards the file with .gcode appended holds the whole G-code, every other file is as before, and the G-code consists of the start code, one block per 0.2 mm of height, and the end code.  The same with any other workable options, for as many layers as fit into the height.",
  "all models of that kind, all options that are workable, all file systems without errors, all file contents before, all clipping libraries that are exact and capable",
  "A statement about the whole program for every model; a test runs a few models.",
  ["cmd/goslice/main.go:main","goslice.go:GoSlice.Process","data/option.go:ParseFlags","optimizer/optimizer.go:optimizer.Optimize","slicer/slicer.go:slicer.Slice","writer/writer.go:writer.Write"])
p("C102","The layers of a run are the cross sections of the body in the file",
  "Take any run of goslice that ends well on a watertight model (every edge belongs to two faces in opposite directions).  Its layer k covers exactly the points of the plate above which the body described by the faces of the file is: inside is decided by counting faces of the file along a line, at the height lowest vertex + initial thickness + k * thickness, and the body is moved to the middle of the plate and nowhere else.  Excepted are points closer than 1.42 micrometers to the surface, outlines not longer than the finish distance and the thin triangles cut off by simplifying.",
  "all finished runs, all watertight models with separate vertices within 1 m, all layers that hit no vertex and where different edges pass more than the meld distance and 3 micrometers apart, all points, all clipping libraries that are exact for the points considered",
  "Connects the faces in the input file with what every later stage works on, for every model.",
  ["goslice.go:GoSlice.Process","optimizer/optimizer.go:optimizer.Optimize","slicer/slicer.go:slicer.Slice","slicer/layer.go:layer.makePolygons"])
p("C103","A run extrudes only inside the body in the file",
  "For the runs of C102: the G-code is produced by polygons in layers; every wall printed in layer k is a contour of a part, and every line of bottom, top and infill fills a part, that lies inside the body described by the file (moved to the middle of the plate, at the height of the layer), with the same exceptions as in C102.",
  "all finished runs as in C102 with overlaps that are not negative, all walls and lines in all such layers",
  "From the faces of the file to the calls that write the G-code, for every model and option value.",
  ["goslice.go:GoSlice.Process","modifier/perimeter.go:perimeterModifier.Modify","modifier/infill.go:infillModifier.Modify","gcode/renderer/infill.go:Infill.Render","gcode/renderer/perimeter.go:Perimeter.Render"])
p("C104","The order of the triangles in the file does not matter",
  "Two runs with the same options on files that hold the same triangles, in any order, each named from any of its corners on, and either all with the same or all with the other side up (normals pointing inwards), print the same number of layers; each layer covers the same points, except for points closer than 1.42 micrometers to the surface, outlines not longer than the finish distance and the thin triangles cut off by simplifying.",
  "all pairs of finished runs on watertight models as in C102, all layers as in C102, all points",
  "Every exporter writes another order; the slicer walks the faces, the melding and the outlines in file order, and a test compares a few orders of a few models.",
  ["optimizer/optimizer.go:optimizer.Optimize","slicer/slicer.go:slicer.Slice","slicer/layer.go:layer.makePolygons","reader/reader.go:reader.Read"])
p("C105","The reported number of open faces is the number of edges with one face only",
  "For a model with vertices further apart than the meld distance and without degenerate or repeated faces, the number reported as open faces is exactly the number of edges of the model in the file that belong to no second face.  It is 0 exactly if every edge of every face belongs to another face too, in particular for every watertight model.",
  "all such models with coordinates up to 2^29 micrometers, all meld distances and plate centers",
  "The search over the faces of a point must find every partner of every edge, for every model.",
  ["optimizer/optimizer.go:optimizer.Optimize","optimizer/model.go:optimizedModel.getFaceIdxWithPoints"])
p("C106","Of two bodies in one file the layers cover what is in exactly one of them",
  "If a file holds two watertight bodies without common vertices, a layer of a finished run covers the points that are inside exactly one of the two bodies at the height of the layer, apart from points near the surface, dropped loops and slivers. Bodies that do not overlap are therefore both printed, and where two bodies overlap the layers have a hole: that everything inside a body is printed is refuted by two overlapping tetrahedra.",
  "all pairs of watertight bodies without common vertices, options, layers and points away from the surface, and all runs that finish",
  "Overlapping bodies are common in exported files, the effect depends on how all polygons of a layer are combined, and no finite list of files settles it.",
  ["slicer/slicer.go:Slice","slicer/layer.go:layer.makePolygons","clip/clip.go:clipperClipper.GenerateLayerParts","reader/reader.go:reader.Read"])
p("C107","The nozzle never goes below what is already printed",
  "From the moment a polygon of a layer is printed until the end code, no move of the generated G-code ends below the height of that layer, apart from the rounding of the printed number to 10 micrometers: neither a printing move, nor a travel, a hop or a retraction.",
  "all prints with non-negative layer thicknesses and hop, up to a height of 32.768 m, all layers, all renderer results, all clipping libraries, any state of the printer before the print",
  "A nozzle that dips into the print destroys it; whether one does depends on the order of all polygons and travels of the whole print and on the state kept between them.",
  ["gcode/builder.go:Builder.AddPolygon","gcode/builder.go:Builder.AddMoveSpeed","gcode/generator.go:generator.Generate","gcode/renderer/perimeter.go:Perimeter.Render"])
p("C108","Each layer is executed with the settings of that layer",
  "For every polygon printed on layer n, a printer that reads the G-code text makes exactly the moves for that polygon at the height InitialLayerThickness + n*LayerThickness, with the filament per length for the initial thickness on layer 0 and for the normal thickness above, with the move speed, retraction and hop of the options, and with the initial layer speed on layer 0 (if it is positive) and the layer speed or outer perimeter speed otherwise, whatever the printer did before the print.",
  "all options with custom start code without '%', all layer lists, renderer results and clipping libraries, any state of the printer before the print",
  "Settings are state of the builder that is changed by several renderers in turn; whether the right ones are in force depends on the whole history of the print.",
  ["gcode/renderer/layer.go:PreLayer.Render","gcode/renderer/perimeter.go:Perimeter.Render","gcode/builder.go:Builder.AddPolygon","gcode/generator.go:generator.Generate"])
p("C109","What is printed is the body in the file, also with a clipping library that rounds to whole micrometers",
  "With a clipping library that is right only at points further than some distance e from the contours it is given, a finished run of a watertight model still covers in each layer exactly the points above which the body in the file is at the height of the layer, moved to the middle of the plate. Excepted are points closer than e to an outline of the layer or closer than the diagonal of 1 um to the surface, dropped outlines shorter than the finish snap distance, and slivers removed by the simplification.",
  "all watertight models, options in range, layers that pass no vertex, points of the real plane, distances e and clipping libraries that are right within e",
  "The error of a library that computes with whole numbers depends on all contours; a test sees single points of single models.",
  ["clip/clip.go:clipperClipper.GenerateLayerParts","slicer/slicer.go:slicer.Slice","goslice.go:GoSlice.Process"])
p("C110","Success does not depend on what the clipping library computes",
  "With workable settings and an operating system that takes the file, every printable model is turned into G-code and written, with one layer per layer thickness, whatever areas the clipping library returns, as long as its calls do not fail and it cuts lines into pieces of them. If the library is right at the points further than e from its input, calling the program with the file name of a printable watertight model exits with code 0, and each layer of what it wrote is the cut through the body in the file, up to that distance.",
  "all such models, settings, files, operating systems and all clipping libraries that do not fail",
  "The library may return any areas, also nonsense, empty ones or thousands of slivers; no test can try them all.",
  ["goslice.go:GoSlice.Process","clip/clip.go","modifier","cmd/goslice/main.go:main"])
p("C111","Support depends on what is above it only",
  "The support and the support interface of a layer depend on the outlines of this layer and of the layers above it only: if two models sliced with the same settings have the same outlines from some layer upwards (counted from the top, so their heights may differ), these layers get the same support areas, however different the models are below.",
  "all pairs of models, all settings with gap and interface layers that are not negative, all clipping libraries, all layers",
  "The layers below are arbitrary and arbitrarily many.",
  ["modifier/support.go:supportDetectorModifier.Modify","modifier/support.go:supportGeneratorModifier.Modify"])
p("C112","The same model and settings give the same G-code",
  "Slicing the same triangles with the same settings always gives the same G-code: two runs that end without an error leave the same content in their output files, from whatever copy of the file they read, whatever the names of the files are, whatever the operating system answers and whatever is on the disk before, for example what an interrupted run has left there. A run repeated after a crash at any point restores the file and changes no other.",
  "all files, settings, clipping libraries, operating systems, disks, names of files and points of a crash",
  "The state of the disk, the answers of the operating system and the point of the interruption are arbitrary.",
  ["goslice.go:GoSlice.Process","writer/writer.go:writer.Write","gcode/generator.go:generator.Generate"])
p("C113","The center option moves the print and changes nothing else about its shape",
  "Slicing the same triangles around another center gives the same layers, moved by the difference of the two centers: the outlines, the walls, the areas to fill, the brim, the support areas and the lines the skirt, the brim and the walls are printed with. This holds if the clipping library treats moved areas like the areas themselves. The lines inside filled areas are excluded, because their pattern is turned about the origin and not about the model.",
  "all models, settings, centers, and all clipping libraries that do not depend on the position",
  "The position and the model are arbitrary, and the shapes pass through snapping, simplification, six modifiers and the renderers.",
  ["optimizer/optimizer.go:optimizer.Optimize","slicer/slicer.go:slicer.Slice","data/layer.go:Path.Simplify","modifier/perimeter.go:perimeterModifier.Modify","modifier/brim.go:brimModifier.Modify","modifier/support.go:supportGeneratorModifier.Modify","gcode/renderer/skirt.go:Skirt.Render"])
p("C114","The options of the skirt and of the filling pattern change the skirt and the filling only",
  "Two runs on the same triangles whose settings differ only in the number and the distance of the skirt loops have the same layers, and print the same brim, walls and fillings in every layer; above the first layer everything is the same. A skirt with more loops at the same distance starts with the loops of the smaller one. Two runs that differ only in density (not 0), direction and zig zag of the filling have the same layers and print the same skirt, brim and walls.",
  "all models, settings, numbers of loops, distances, densities and directions, and all clipping libraries",
  "The settings and the model are arbitrary and the claim compares whole prints.",
  ["goslice.go:NewGoSlice","gcode/renderer/skirt.go:Skirt.Render","gcode/renderer/infill.go:Infill.Render","modifier/internal_infill.go:internalInfillModifier.Modify","clip/clip.go:clipperClipper.Inset"])
p("C115","More solid layers never make the solid area smaller",
  "If the settings differ only in the numbers of solid bottom and top layers, and both numbers are at least as large, then in every layer what was solid is still solid, what was a bottom is still a bottom, and the area with the sparse filling is no larger. This holds with a clipping library that computes exactly if the overlaps together are 100 percent, so that solid areas are not enlarged. With the default overlap it is false: two separate exposed areas are enlarged and what lies in both is left out, so a second bottom layer can take away solid area.",
  "all stacks of layers, points, settings and exact clipping libraries",
  "Layers, numbers of layers and points are arbitrary and two prints are compared.",
  ["modifier/infill.go:infillModifier.Modify","modifier/internal_infill.go:internalInfillModifier.Modify"])
with open('/verif/properties.jsonl','w') as f:
    for x in P: f.write(json.dumps(x)+"\n")
print(len(P))
