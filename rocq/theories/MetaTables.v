(** The tables of the built-in object model, transcribed from src/aaf2/model/classdefs.py,
    src/aaf2/model/typedefs.py, src/aaf2/model/ext/classdefs.py, src/aaf2/model/ext/typedefs.py and
    src/aaf2/metadict.py:302-312, entry by entry and in the order of the dictionaries. An identifier
    is the number its 32 hexadecimal digits write; a dynamic property id (None) is [None]. *)
From Verif Require Import Base MetaModel.
From Coq Require Import ZArith List Bool String.
Import ListNotations.
Open Scope Z_scope.
Open Scope string_scope.

(** src/aaf2/metadict.py:302-307 *)
Definition root_classes : list crow :=
  [CRow "Root" 0xb3b398a51c9011d48053080036210804 None true
    [PRow "Header" 0x0d01030101020100060e2b3401010102 (Some 0x2) 0x0502280000000000060e2b3401040101 false false;
     PRow "MetaDictionary" 0x0d01030101010100060e2b3401010102 (Some 0x1) 0x0502270000000000060e2b3401040101 false false]].

(** src/aaf2/model/classdefs.py:1-726 *)
Definition base_classes : list crow :=
  [CRow "InterchangeObject" 0x0d01010101010100060e2b3402060101 None false
    [PRow "ObjClass" 0x0601010401010000060e2b3401010102 (Some 0x101) 0x0501010000000000060e2b3401040101 false false;
     PRow "Generation" 0x0520070108000000060e2b3401010102 (Some 0x102) 0x0103010000000000060e2b3401040101 true false];
   CRow "Component" 0x0d01010101010200060e2b3402060101 (Some 0x0d01010101010100060e2b3402060101) false
    [PRow "DataDefinition" 0x0407010000000000060e2b3401010102 (Some 0x201) 0x0501030000000000060e2b3401040101 false false;
     PRow "Length" 0x0702020101030000060e2b3401010102 (Some 0x202) 0x0101200200000000060e2b3401040101 true false;
     PRow "KLVData" 0x0301021004000000060e2b3401010102 (Some 0x203) 0x0506090000000000060e2b3401040101 true false;
     PRow "UserComments" 0x0302010216000000060e2b3401010107 (Some 0x204) 0x0506080000000000060e2b3401040101 true false;
     PRow "Attributes" 0x0301021008000000060e2b3401010107 (Some 0x205) 0x0506080000000000060e2b3401040101 true false];
   CRow "Segment" 0x0d01010101010300060e2b3402060101 (Some 0x0d01010101010200060e2b3402060101) false
    [];
   CRow "EdgeCode" 0x0d01010101010400060e2b3402060101 (Some 0x0d01010101010300060e2b3402060101) true
    [PRow "Start" 0x0104090100000000060e2b3401010102 (Some 0x401) 0x0101200100000000060e2b3401040101 false false;
     PRow "FilmKind" 0x0410010301090000060e2b3401010102 (Some 0x402) 0x0201010d00000000060e2b3401040101 false false;
     PRow "CodeFormat" 0x0410010301020000060e2b3401010101 (Some 0x403) 0x0201010c00000000060e2b3401040101 false false;
     PRow "Header" 0x0103020102000000060e2b3401010102 (Some 0x404) 0x0410010000000000060e2b3401040101 true false];
   CRow "EssenceGroup" 0x0d01010101010500060e2b3402060101 (Some 0x0d01010101010300060e2b3402060101) true
    [PRow "Choices" 0x0601010406010000060e2b3401010102 (Some 0x501) 0x0506070000000000060e2b3401040101 false false;
     PRow "StillFrame" 0x0601010402080000060e2b3401010102 (Some 0x502) 0x0502080000000000060e2b3401040101 true false];
   CRow "Event" 0x0d01010101010600060e2b3402060101 (Some 0x0d01010101010300060e2b3402060101) false
    [PRow "Position" 0x0702010303030000060e2b3401010102 (Some 0x601) 0x0101200100000000060e2b3401040101 false false;
     PRow "Comment" 0x0530040401000000060e2b3401010102 (Some 0x602) 0x0110020000000000060e2b3401040101 true false];
   CRow "GPITrigger" 0x0d01010101010700060e2b3402060101 (Some 0x0d01010101010600060e2b3402060101) true
    [PRow "ActiveState" 0x0530040100000000060e2b3401010101 (Some 0x801) 0x0104010000000000060e2b3401040101 false false];
   CRow "CommentMarker" 0x0d01010101010800060e2b3402060101 (Some 0x0d01010101010600060e2b3402060101) true
    [PRow "Annotation" 0x06010104020a0000060e2b3401010102 (Some 0x901) 0x0502080000000000060e2b3401040101 true false];
   CRow "Filler" 0x0d01010101010900060e2b3402060101 (Some 0x0d01010101010300060e2b3402060101) true
    [];
   CRow "OperationGroup" 0x0d01010101010a00060e2b3402060101 (Some 0x0d01010101010300060e2b3402060101) true
    [PRow "Operation" 0x0530050600000000060e2b3401010102 (Some 0xb01) 0x0501070000000000060e2b3401040101 false false;
     PRow "InputSegments" 0x0601010406020000060e2b3401010102 (Some 0xb02) 0x0506060000000000060e2b3401040101 true false;
     PRow "Parameters" 0x06010104060a0000060e2b3401010102 (Some 0xb03) 0x05060a0000000000060e2b3401040101 true false;
     PRow "BypassOverride" 0x0530050c00000000060e2b3401010102 (Some 0xb04) 0x0101030000000000060e2b3401040101 true false;
     PRow "Rendering" 0x0601010402060000060e2b3401010102 (Some 0xb05) 0x0502080000000000060e2b3401040101 true false];
   CRow "NestedScope" 0x0d01010101010b00060e2b3402060101 (Some 0x0d01010101010300060e2b3402060101) true
    [PRow "Slots" 0x0601010406070000060e2b3401010102 (Some 0xc01) 0x0506060000000000060e2b3401040101 false false];
   CRow "Pulldown" 0x0d01010101010c00060e2b3402060101 (Some 0x0d01010101010300060e2b3402060101) true
    [PRow "InputSegment" 0x0601010402070000060e2b3401010102 (Some 0xd01) 0x0502060000000000060e2b3401040101 false false;
     PRow "PulldownKind" 0x0540100102000000060e2b3401010102 (Some 0xd02) 0x0201010b00000000060e2b3401040101 false false;
     PRow "PulldownDirection" 0x0540100101000000060e2b3401010102 (Some 0xd03) 0x0201010a00000000060e2b3401040101 false false;
     PRow "PhaseFrame" 0x0540100103000000060e2b3401010102 (Some 0xd04) 0x0101230000000000060e2b3401040101 false false];
   CRow "ScopeReference" 0x0d01010101010d00060e2b3402060101 (Some 0x0d01010101010300060e2b3402060101) true
    [PRow "RelativeScope" 0x0601010303000000060e2b3401010102 (Some 0xe01) 0x0101030000000000060e2b3401040101 false false;
     PRow "RelativeSlot" 0x0601010304000000060e2b3401010102 (Some 0xe02) 0x0101030000000000060e2b3401040101 false false];
   CRow "Selector" 0x0d01010101010e00060e2b3402060101 (Some 0x0d01010101010300060e2b3402060101) true
    [PRow "Selected" 0x0601010402090000060e2b3401010102 (Some 0xf01) 0x0502060000000000060e2b3401040101 false false;
     PRow "Alternates" 0x0601010406080000060e2b3401010102 (Some 0xf02) 0x0506060000000000060e2b3401040101 true false];
   CRow "Sequence" 0x0d01010101010f00060e2b3402060101 (Some 0x0d01010101010300060e2b3402060101) true
    [PRow "Components" 0x0601010406090000060e2b3401010102 (Some 0x1001) 0x0506010000000000060e2b3401040101 false false];
   CRow "SourceReference" 0x0d01010101011000060e2b3402060101 (Some 0x0d01010101010300060e2b3402060101) false
    [PRow "SourceID" 0x0601010301000000060e2b3401010102 (Some 0x1101) 0x0103020000000000060e2b3401040101 true false;
     PRow "SourceMobSlotID" 0x0601010302000000060e2b3401010102 (Some 0x1102) 0x0101030000000000060e2b3401040101 false false;
     PRow "ChannelIDs" 0x0601010307000000060e2b3401010107 (Some 0x1103) 0x0401090000000000060e2b3401040101 true false;
     PRow "MonoSourceSlotIDs" 0x0601010308000000060e2b3401010108 (Some 0x1104) 0x0401090000000000060e2b3401040101 true false];
   CRow "SourceClip" 0x0d01010101011100060e2b3402060101 (Some 0x0d01010101011000060e2b3402060101) true
    [PRow "StartTime" 0x0702010301040000060e2b3401010102 (Some 0x1201) 0x0101200100000000060e2b3401040101 true false;
     PRow "FadeInLength" 0x0702020101050200060e2b3401010102 (Some 0x1202) 0x0101200200000000060e2b3401040101 true false;
     PRow "FadeInType" 0x0530050100000000060e2b3401010101 (Some 0x1203) 0x0201010700000000060e2b3401040101 true false;
     PRow "FadeOutLength" 0x0702020101050300060e2b3401010102 (Some 0x1204) 0x0101200200000000060e2b3401040101 true false;
     PRow "FadeOutType" 0x0530050200000000060e2b3401010101 (Some 0x1205) 0x0201010700000000060e2b3401040101 true false];
   CRow "TextClip" 0x0d01010101011200060e2b3402060101 (Some 0x0d01010101011000060e2b3402060101) false
    [];
   CRow "HTMLClip" 0x0d01010101011300060e2b3402060101 (Some 0x0d01010101011200060e2b3402060101) true
    [PRow "BeginAnchor" 0x0530060101000000060e2b3401010102 (Some 0x1401) 0x0110020000000000060e2b3401040101 true false;
     PRow "EndAnchor" 0x0530060201000000060e2b3401010102 (Some 0x1402) 0x0110020000000000060e2b3401040101 true false];
   CRow "Timecode" 0x0d01010101011400060e2b3402060101 (Some 0x0d01010101010300060e2b3402060101) true
    [PRow "Start" 0x0702010301050000060e2b3401010102 (Some 0x1501) 0x0101200100000000060e2b3401040101 false false;
     PRow "FPS" 0x0404010102060000060e2b3401010102 (Some 0x1502) 0x0101020000000000060e2b3401040101 false false;
     PRow "Drop" 0x0404010105000000060e2b3401010101 (Some 0x1503) 0x0104010000000000060e2b3401040101 false false];
   CRow "TimecodeStream" 0x0d01010101011500060e2b3402060101 (Some 0x0d01010101010300060e2b3402060101) false
    [PRow "SampleRate" 0x0404010102010000060e2b3401010102 (Some 0x1601) 0x0301010000000000060e2b3401040101 false false;
     PRow "Source" 0x0407030000000000060e2b3401010102 (Some 0x1602) 0x0410020000000000060e2b3401040101 false false;
     PRow "SourceType" 0x0404020100000000060e2b3401010101 (Some 0x1603) 0x0201010900000000060e2b3401040101 false false];
   CRow "TimecodeStream12M" 0x0d01010101011600060e2b3402060101 (Some 0x0d01010101011500060e2b3402060101) true
    [PRow "IncludeSync" 0x0404010104000000060e2b3401010101 (Some 0x1701) 0x0104010000000000060e2b3401040101 false false];
   CRow "Transition" 0x0d01010101011700060e2b3402060101 (Some 0x0d01010101010200060e2b3402060101) true
    [PRow "OperationGroup" 0x0601010402050000060e2b3401010102 (Some 0x1801) 0x0502050000000000060e2b3401040101 false false;
     PRow "CutPoint" 0x0702010301060000060e2b3401010102 (Some 0x1802) 0x0101200100000000060e2b3401040101 false false];
   CRow "ContentStorage" 0x0d01010101011800060e2b3402060101 (Some 0x0d01010101010100060e2b3402060101) true
    [PRow "Mobs" 0x0601010405010000060e2b3401010102 (Some 0x1901) 0x0505070000000000060e2b3401040101 false false;
     PRow "EssenceData" 0x0601010405020000060e2b3401010102 (Some 0x1902) 0x0505050000000000060e2b3401040101 true false];
   CRow "ControlPoint" 0x0d01010101011900060e2b3402060101 (Some 0x0d01010101010100060e2b3402060101) true
    [PRow "Value" 0x0530050d00000000060e2b3401010102 (Some 0x1a02) 0x0410030000000000060e2b3401040101 false false;
     PRow "Time" 0x0702010310020100060e2b3401010102 (Some 0x1a03) 0x0301010000000000060e2b3401040101 false false;
     PRow "EditHint" 0x0530050800000000060e2b3401010102 (Some 0x1a04) 0x0201010600000000060e2b3401040101 true false];
   CRow "DefinitionObject" 0x0d01010101011a00060e2b3402060101 (Some 0x0d01010101010100060e2b3402060101) false
    [PRow "Identification" 0x0101150300000000060e2b3401010102 (Some 0x1b01) 0x0103010000000000060e2b3401040101 false true;
     PRow "Name" 0x0107010203010000060e2b3401010102 (Some 0x1b02) 0x0110020000000000060e2b3401040101 false false;
     PRow "Description" 0x0302030102010000060e2b3401010102 (Some 0x1b03) 0x0110020000000000060e2b3401040101 true false];
   CRow "DataDefinition" 0x0d01010101011b00060e2b3402060101 (Some 0x0d01010101011a00060e2b3402060101) true
    [];
   CRow "OperationDefinition" 0x0d01010101011c00060e2b3402060101 (Some 0x0d01010101011a00060e2b3402060101) true
    [PRow "DataDefinition" 0x0530050900000000060e2b3401010102 (Some 0x1e01) 0x0501030000000000060e2b3401040101 false false;
     PRow "IsTimeWarp" 0x0530050300000000060e2b3401010101 (Some 0x1e02) 0x0104010000000000060e2b3401040101 true false;
     PRow "DegradeTo" 0x0601010404010000060e2b3401010102 (Some 0x1e03) 0x0504010000000000060e2b3401040101 true false;
     PRow "OperationCategory" 0x0530050a00000000060e2b3401010102 (Some 0x1e06) 0x0202010100000000060e2b3401040101 true false;
     PRow "NumberInputs" 0x0530050400000000060e2b3401010101 (Some 0x1e07) 0x0101070000000000060e2b3401040101 false false;
     PRow "Bypass" 0x0530050500000000060e2b3401010101 (Some 0x1e08) 0x0101030000000000060e2b3401040101 true false;
     PRow "ParametersDefined" 0x0601010403020000060e2b3401010102 (Some 0x1e09) 0x05030e0000000000060e2b3401040101 true false];
   CRow "ParameterDefinition" 0x0d01010101011d00060e2b3402060101 (Some 0x0d01010101011a00060e2b3402060101) true
    [PRow "Type" 0x0601010401060000060e2b3401010102 (Some 0x1f01) 0x0501090000000000060e2b3401040101 false false;
     PRow "DisplayUnits" 0x0530050b01000000060e2b3401010102 (Some 0x1f03) 0x0110020000000000060e2b3401040101 true false];
   CRow "PluginDefinition" 0x0d01010101011e00060e2b3402060101 (Some 0x0d01010101011a00060e2b3402060101) true
    [PRow "PluginCategory" 0x0520090100000000060e2b3401010102 (Some 0x2203) 0x0202010300000000060e2b3401040101 false false;
     PRow "VersionNumber" 0x0303030103000000060e2b3401010102 (Some 0x2204) 0x0301030000000000060e2b3401040101 false false;
     PRow "VersionString" 0x0303030102010000060e2b3401010102 (Some 0x2205) 0x0110020000000000060e2b3401040101 true false;
     PRow "Manufacturer" 0x010a010101010000060e2b3401010102 (Some 0x2206) 0x0110020000000000060e2b3401040101 true false;
     PRow "ManufacturerInfo" 0x06010104020b0000060e2b3401010102 (Some 0x2207) 0x0502040000000000060e2b3401040101 true false;
     PRow "ManufacturerID" 0x010a010103000000060e2b3401010102 (Some 0x2208) 0x0103010000000000060e2b3401040101 true false;
     PRow "Platform" 0x0520090200000000060e2b3401010102 (Some 0x2209) 0x0103010000000000060e2b3401040101 true false;
     PRow "MinPlatformVersion" 0x0520090300000000060e2b3401010102 (Some 0x220a) 0x0301030000000000060e2b3401040101 true false;
     PRow "MaxPlatformVersion" 0x0520090400000000060e2b3401010102 (Some 0x220b) 0x0301030000000000060e2b3401040101 true false;
     PRow "Engine" 0x0520090500000000060e2b3401010102 (Some 0x220c) 0x0103010000000000060e2b3401040101 true false;
     PRow "MinEngineVersion" 0x0520090600000000060e2b3401010102 (Some 0x220d) 0x0301030000000000060e2b3401040101 true false;
     PRow "MaxEngineVersion" 0x0520090700000000060e2b3401010102 (Some 0x220e) 0x0301030000000000060e2b3401040101 true false;
     PRow "PluginAPI" 0x0520090800000000060e2b3401010102 (Some 0x220f) 0x0103010000000000060e2b3401040101 true false;
     PRow "MinPluginAPI" 0x0520090900000000060e2b3401010102 (Some 0x2210) 0x0301030000000000060e2b3401040101 true false;
     PRow "MaxPluginAPI" 0x0520090a00000000060e2b3401010102 (Some 0x2211) 0x0301030000000000060e2b3401040101 true false;
     PRow "SoftwareOnly" 0x0520090b00000000060e2b3401010102 (Some 0x2212) 0x0104010000000000060e2b3401040101 true false;
     PRow "Accelerator" 0x0520090c00000000060e2b3401010102 (Some 0x2213) 0x0104010000000000060e2b3401040101 true false;
     PRow "Locators" 0x0520090d00000000060e2b3401010102 (Some 0x2214) 0x0506040000000000060e2b3401040101 true false;
     PRow "Authentication" 0x0520090e00000000060e2b3401010102 (Some 0x2215) 0x0104010000000000060e2b3401040101 true false;
     PRow "DefinitionObject" 0x0520090f00000000060e2b3401010102 (Some 0x2216) 0x0103010000000000060e2b3401040101 true false];
   CRow "CodecDefinition" 0x0d01010101011f00060e2b3402060101 (Some 0x0d01010101011a00060e2b3402060101) true
    [PRow "FileDescriptorClass" 0x0601010401070000060e2b3401010102 (Some 0x2301) 0x0501010000000000060e2b3401040101 false false;
     PRow "DataDefinitions" 0x0601010403010000060e2b3401010102 (Some 0x2302) 0x0504030000000000060e2b3401040101 false false];
   CRow "ContainerDefinition" 0x0d01010101012000060e2b3402060101 (Some 0x0d01010101011a00060e2b3402060101) true
    [PRow "EssenceIsIdentified" 0x0301020103000000060e2b3401010101 (Some 0x2401) 0x0104010000000000060e2b3401040101 true false];
   CRow "InterpolationDefinition" 0x0d01010101012100060e2b3402060101 (Some 0x0d01010101011a00060e2b3402060101) true
    [];
   CRow "Dictionary" 0x0d01010101012200060e2b3402060101 (Some 0x0d01010101010100060e2b3402060101) true
    [PRow "OperationDefinitions" 0x0601010405030000060e2b3401010102 (Some 0x2603) 0x0505080000000000060e2b3401040101 true false;
     PRow "ParameterDefinitions" 0x0601010405040000060e2b3401010102 (Some 0x2604) 0x0505090000000000060e2b3401040101 true false;
     PRow "DataDefinitions" 0x0601010405050000060e2b3401010102 (Some 0x2605) 0x0505040000000000060e2b3401040101 true false;
     PRow "PluginDefinitions" 0x0601010405060000060e2b3401010102 (Some 0x2606) 0x05050a0000000000060e2b3401040101 true false;
     PRow "CodecDefinitions" 0x0601010405070000060e2b3401010102 (Some 0x2607) 0x0505020000000000060e2b3401040101 true false;
     PRow "ContainerDefinitions" 0x0601010405080000060e2b3401010102 (Some 0x2608) 0x0505030000000000060e2b3401040101 true false;
     PRow "InterpolationDefinitions" 0x0601010405090000060e2b3401010102 (Some 0x2609) 0x0505060000000000060e2b3401040101 true false;
     PRow "KLVDataDefinitions" 0x06010104050a0000060e2b3401010107 (Some 0x260a) 0x05050d0000000000060e2b3401040101 true false;
     PRow "TaggedValueDefinitions" 0x06010104050b0000060e2b3401010107 (Some 0x260b) 0x05050e0000000000060e2b3401040101 true false];
   CRow "EssenceData" 0x0d01010101012300060e2b3402060101 (Some 0x0d01010101010100060e2b3402060101) true
    [PRow "MobID" 0x0601010601000000060e2b3401010102 (Some 0x2701) 0x0103020000000000060e2b3401040101 false true;
     PRow "Data" 0x0407020000000000060e2b3401010102 (Some 0x2702) 0x0410020000000000060e2b3401040101 false false;
     PRow "SampleIndex" 0x0601010201000000060e2b3401010102 (Some 0x2b01) 0x0410020000000000060e2b3401040101 true false];
   CRow "EssenceDescriptor" 0x0d01010101012400060e2b3402060101 (Some 0x0d01010101010100060e2b3402060101) false
    [PRow "Locator" 0x0601010406030000060e2b3401010102 (Some 0x2f01) 0x0506040000000000060e2b3401040101 true false;
     PRow "SubDescriptors" 0x0601010406100000060e2b3401010109 None 0x05060e0000000000060e2b3401040101 true false];
   CRow "FileDescriptor" 0x0d01010101012500060e2b3402060101 (Some 0x0d01010101012400060e2b3402060101) false
    [PRow "SampleRate" 0x0406010100000000060e2b3401010101 (Some 0x3001) 0x0301010000000000060e2b3401040101 false false;
     PRow "Length" 0x0406010200000000060e2b3401010101 (Some 0x3002) 0x0101200200000000060e2b3401040101 false false;
     PRow "ContainerFormat" 0x0601010401020000060e2b3401010102 (Some 0x3004) 0x0501020000000000060e2b3401040101 true false;
     PRow "CodecDefinition" 0x0601010401030000060e2b3401010102 (Some 0x3005) 0x05010b0000000000060e2b3401040101 true false;
     PRow "LinkedSlotID" 0x0601010305000000060e2b3401010105 (Some 0x3006) 0x0101030000000000060e2b3401040101 true false];
   CRow "AIFCDescriptor" 0x0d01010101012600060e2b3402060101 (Some 0x0d01010101012500060e2b3402060101) true
    [PRow "Summary" 0x0303030202000000060e2b3401010102 (Some 0x3101) 0x0410010000000000060e2b3401040101 false false];
   CRow "DigitalImageDescriptor" 0x0d01010101012700060e2b3402060101 (Some 0x0d01010101012500060e2b3402060101) false
    [PRow "Compression" 0x0401060100000000060e2b3401010102 (Some 0x3201) 0x0103010000000000060e2b3401040101 true false;
     PRow "StoredHeight" 0x0401050201000000060e2b3401010101 (Some 0x3202) 0x0101030000000000060e2b3401040101 false false;
     PRow "StoredWidth" 0x0401050202000000060e2b3401010101 (Some 0x3203) 0x0101030000000000060e2b3401040101 false false;
     PRow "SampledHeight" 0x0401050107000000060e2b3401010101 (Some 0x3204) 0x0101030000000000060e2b3401040101 true false;
     PRow "SampledWidth" 0x0401050108000000060e2b3401010101 (Some 0x3205) 0x0101030000000000060e2b3401040101 true false;
     PRow "SampledXOffset" 0x0401050109000000060e2b3401010101 (Some 0x3206) 0x0101070000000000060e2b3401040101 true false;
     PRow "SampledYOffset" 0x040105010a000000060e2b3401010101 (Some 0x3207) 0x0101070000000000060e2b3401040101 true false;
     PRow "DisplayHeight" 0x040105010b000000060e2b3401010101 (Some 0x3208) 0x0101030000000000060e2b3401040101 true false;
     PRow "DisplayWidth" 0x040105010c000000060e2b3401010101 (Some 0x3209) 0x0101030000000000060e2b3401040101 true false;
     PRow "DisplayXOffset" 0x040105010d000000060e2b3401010101 (Some 0x320a) 0x0101070000000000060e2b3401040101 true false;
     PRow "DisplayYOffset" 0x040105010e000000060e2b3401010101 (Some 0x320b) 0x0101070000000000060e2b3401040101 true false;
     PRow "FrameLayout" 0x0401030104000000060e2b3401010101 (Some 0x320c) 0x0201010800000000060e2b3401040101 false false;
     PRow "VideoLineMap" 0x0401030205000000060e2b3401010102 (Some 0x320d) 0x0401030000000000060e2b3401040101 false false;
     PRow "ImageAspectRatio" 0x0401010101000000060e2b3401010101 (Some 0x320e) 0x0301010000000000060e2b3401040101 false false;
     PRow "AlphaTransparency" 0x0520010200000000060e2b3401010102 (Some 0x320f) 0x0201012000000000060e2b3401040101 true false;
     PRow "TransferCharacteristic" 0x0401020101010200060e2b3401010102 (Some 0x3210) 0x0202010200000000060e2b3401040101 true false;
     PRow "ColorPrimaries" 0x0401020101060100060e2b3401010109 (Some 0x3219) 0x0202010500000000060e2b3401040101 true false;
     PRow "CodingEquations" 0x0401020101030100060e2b3401010102 (Some 0x321a) 0x0202010600000000060e2b3401040101 true false;
     PRow "ImageAlignmentFactor" 0x0418010100000000060e2b3401010102 (Some 0x3211) 0x0101030000000000060e2b3401040101 true false;
     PRow "FieldDominance" 0x0401030106000000060e2b3401010102 (Some 0x3212) 0x0201012100000000060e2b3401040101 true false;
     PRow "FieldStartOffset" 0x0418010200000000060e2b3401010102 (Some 0x3213) 0x0101030000000000060e2b3401040101 true false;
     PRow "FieldEndOffset" 0x0418010300000000060e2b3401010102 (Some 0x3214) 0x0101030000000000060e2b3401040101 true false;
     PRow "SignalStandard" 0x0405011300000000060e2b3401010105 (Some 0x3215) 0x0201012700000000060e2b3401040101 true false;
     PRow "StoredF2Offset" 0x0401030208000000060e2b3401010105 (Some 0x3216) 0x0101070000000000060e2b3401040101 true false;
     PRow "DisplayF2Offset" 0x0401030207000000060e2b3401010105 (Some 0x3217) 0x0101070000000000060e2b3401040101 true false;
     PRow "ActiveFormatDescriptor" 0x0401030209000000060e2b3401010105 (Some 0x3218) 0x0101010000000000060e2b3401040101 true false];
   CRow "CDCIDescriptor" 0x0d01010101012800060e2b3402060101 (Some 0x0d01010101012700060e2b3402060101) true
    [PRow "ComponentWidth" 0x040105030a000000060e2b3401010102 (Some 0x3301) 0x0101030000000000060e2b3401040101 false false;
     PRow "HorizontalSubsampling" 0x0401050105000000060e2b3401010101 (Some 0x3302) 0x0101030000000000060e2b3401040101 false false;
     PRow "ColorSiting" 0x0401050106000000060e2b3401010101 (Some 0x3303) 0x0201010500000000060e2b3401040101 true false;
     PRow "BlackReferenceLevel" 0x0401050303000000060e2b3401010101 (Some 0x3304) 0x0101030000000000060e2b3401040101 true false;
     PRow "WhiteReferenceLevel" 0x0401050304000000060e2b3401010101 (Some 0x3305) 0x0101030000000000060e2b3401040101 true false;
     PRow "ColorRange" 0x0401050305000000060e2b3401010102 (Some 0x3306) 0x0101030000000000060e2b3401040101 true false;
     PRow "PaddingBits" 0x0418010400000000060e2b3401010102 (Some 0x3307) 0x0101060000000000060e2b3401040101 true false;
     PRow "VerticalSubsampling" 0x0401050110000000060e2b3401010102 (Some 0x3308) 0x0101030000000000060e2b3401040101 true false;
     PRow "AlphaSamplingWidth" 0x0401050307000000060e2b3401010102 (Some 0x3309) 0x0101030000000000060e2b3401040101 true false;
     PRow "ReversedByteOrder" 0x030102010a000000060e2b3401010105 (Some 0x330b) 0x0104010000000000060e2b3401040101 true false];
   CRow "RGBADescriptor" 0x0d01010101012900060e2b3402060101 (Some 0x0d01010101012700060e2b3402060101) true
    [PRow "PixelLayout" 0x0401050306000000060e2b3401010102 (Some 0x3401) 0x0402010000000000060e2b3401040101 false false;
     PRow "Palette" 0x0401050308000000060e2b3401010102 (Some 0x3403) 0x0410010000000000060e2b3401040101 true false;
     PRow "PaletteLayout" 0x0401050309000000060e2b3401010102 (Some 0x3404) 0x0402010000000000060e2b3401040101 true false;
     PRow "ScanningDirection" 0x0401040401000000060e2b3401010105 (Some 0x3405) 0x0201012800000000060e2b3401040101 true false;
     PRow "ComponentMaxRef" 0x040105030b000000060e2b3401010105 (Some 0x3406) 0x0101030000000000060e2b3401040101 true false;
     PRow "ComponentMinRef" 0x040105030c000000060e2b3401010105 (Some 0x3407) 0x0101030000000000060e2b3401040101 true false;
     PRow "AlphaMaxRef" 0x040105030d000000060e2b3401010105 (Some 0x3408) 0x0101030000000000060e2b3401040101 true false;
     PRow "AlphaMinRef" 0x040105030e000000060e2b3401010105 (Some 0x3409) 0x0101030000000000060e2b3401040101 true false];
   CRow "HTMLDescriptor" 0x0d01010101012a00060e2b3402060101 (Some 0x0d01010101012500060e2b3402060101) true
    [];
   CRow "TIFFDescriptor" 0x0d01010101012b00060e2b3402060101 (Some 0x0d01010101012500060e2b3402060101) true
    [PRow "IsUniform" 0x0502010301010000060e2b3401010102 (Some 0x3701) 0x0104010000000000060e2b3401040101 false false;
     PRow "IsContiguous" 0x0608020100000000060e2b3401010101 (Some 0x3702) 0x0104010000000000060e2b3401040101 false false;
     PRow "LeadingLines" 0x0401030203000000060e2b3401010101 (Some 0x3703) 0x0101070000000000060e2b3401040101 true false;
     PRow "TrailingLines" 0x0401030204000000060e2b3401010101 (Some 0x3704) 0x0101070000000000060e2b3401040101 true false;
     PRow "JPEGTableID" 0x0502010301020000060e2b3401010102 (Some 0x3705) 0x0101200300000000060e2b3401040101 true false;
     PRow "Summary" 0x0303030203000000060e2b3401010102 (Some 0x3706) 0x0410010000000000060e2b3401040101 false false];
   CRow "WAVEDescriptor" 0x0d01010101012c00060e2b3402060101 (Some 0x0d01010101012500060e2b3402060101) true
    [PRow "Summary" 0x0303030201000000060e2b3401010102 (Some 0x3801) 0x0410010000000000060e2b3401040101 false false];
   CRow "FilmDescriptor" 0x0d01010101012d00060e2b3402060101 (Some 0x0d01010101012400060e2b3402060101) true
    [PRow "FilmFormat" 0x0410010301080000060e2b3401010102 (Some 0x3901) 0x0201010d00000000060e2b3401040101 true false;
     PRow "FrameRate" 0x0401080203000000060e2b3401010102 (Some 0x3902) 0x0101030000000000060e2b3401040101 true false;
     PRow "PerforationsPerFrame" 0x0410010301030000060e2b3401010102 (Some 0x3903) 0x0101010000000000060e2b3401040101 true false;
     PRow "FilmAspectRatio" 0x0410010302030000060e2b3401010102 (Some 0x3904) 0x0301010000000000060e2b3401040101 true false;
     PRow "Manufacturer" 0x0410010301060100060e2b3401010102 (Some 0x3905) 0x0110020000000000060e2b3401040101 true false;
     PRow "Model" 0x0410010301050100060e2b3401010102 (Some 0x3906) 0x0110020000000000060e2b3401040101 true false;
     PRow "FilmGaugeFormat" 0x0410010301040100060e2b3401010102 (Some 0x3907) 0x0110020000000000060e2b3401040101 true false;
     PRow "FilmBatchNumber" 0x0410010301070100060e2b3401010102 (Some 0x3908) 0x0110020000000000060e2b3401040101 true false];
   CRow "TapeDescriptor" 0x0d01010101012e00060e2b3402060101 (Some 0x0d01010101012400060e2b3402060101) true
    [PRow "FormFactor" 0x0410010101010000060e2b3401010102 (Some 0x3a01) 0x0201010400000000060e2b3401040101 true false;
     PRow "VideoSignal" 0x0401040101000000060e2b3401010102 (Some 0x3a02) 0x0201010300000000060e2b3401040101 true false;
     PRow "TapeFormat" 0x0d01010101010100060e2b3401010102 (Some 0x3a03) 0x0201010200000000060e2b3401040101 true false;
     PRow "Length" 0x0410010103000000060e2b3401010102 (Some 0x3a04) 0x0101030000000000060e2b3401040101 true false;
     PRow "ManufacturerID" 0x0410010104010000060e2b3401010102 (Some 0x3a05) 0x0110020000000000060e2b3401040101 true false;
     PRow "Model" 0x0410010102010000060e2b3401010102 (Some 0x3a06) 0x0110020000000000060e2b3401040101 true false;
     PRow "TapeBatchNumber" 0x0410010106010000060e2b3401010102 (Some 0x3a07) 0x0110020000000000060e2b3401040101 true false;
     PRow "TapeStock" 0x0410010105010000060e2b3401010102 (Some 0x3a08) 0x0110020000000000060e2b3401040101 true false];
   CRow "Header" 0x0d01010101012f00060e2b3402060101 (Some 0x0d01010101010100060e2b3402060101) true
    [PRow "ByteOrder" 0x0301020102000000060e2b3401010101 (Some 0x3b01) 0x0101060000000000060e2b3401040101 false false;
     PRow "LastModified" 0x0702011002040000060e2b3401010102 (Some 0x3b02) 0x0301070000000000060e2b3401040101 false false;
     PRow "Content" 0x0601010402010000060e2b3401010102 (Some 0x3b03) 0x0502010000000000060e2b3401040101 false false;
     PRow "Dictionary" 0x0601010402020000060e2b3401010102 (Some 0x3b04) 0x0502020000000000060e2b3401040101 false false;
     PRow "Version" 0x0301020105000000060e2b3401010102 (Some 0x3b05) 0x0301030000000000060e2b3401040101 false false;
     PRow "IdentificationList" 0x0601010406040000060e2b3401010102 (Some 0x3b06) 0x0506030000000000060e2b3401040101 false false;
     PRow "ObjectModelVersion" 0x0301020104000000060e2b3401010102 (Some 0x3b07) 0x0101030000000000060e2b3401040101 true false;
     PRow "PrimaryMob" 0x0601010401080000060e2b3401010104 (Some 0x3b08) 0x0501060000000000060e2b3401040101 true false;
     PRow "OperationalPattern" 0x0102020300000000060e2b3401010105 (Some 0x3b09) 0x0103010000000000060e2b3401040101 true false;
     PRow "EssenceContainers" 0x0102021002010000060e2b3401010105 (Some 0x3b0a) 0x0403010000000000060e2b3401040101 true false;
     PRow "DescriptiveSchemes" 0x0102021002020000060e2b3401010105 (Some 0x3b0b) 0x0403010000000000060e2b3401040101 true false];
   CRow "Identification" 0x0d01010101013000060e2b3402060101 (Some 0x0d01010101010100060e2b3402060101) true
    [PRow "CompanyName" 0x0520070102010000060e2b3401010102 (Some 0x3c01) 0x0110020000000000060e2b3401040101 false false;
     PRow "ProductName" 0x0520070103010000060e2b3401010102 (Some 0x3c02) 0x0110020000000000060e2b3401040101 false false;
     PRow "ProductVersion" 0x0520070104000000060e2b3401010102 (Some 0x3c03) 0x0301020000000000060e2b3401040101 true false;
     PRow "ProductVersionString" 0x0520070105010000060e2b3401010102 (Some 0x3c04) 0x0110020000000000060e2b3401040101 false false;
     PRow "ProductID" 0x0520070107000000060e2b3401010102 (Some 0x3c05) 0x0103010000000000060e2b3401040101 false false;
     PRow "Date" 0x0702011002030000060e2b3401010102 (Some 0x3c06) 0x0301070000000000060e2b3401040101 false false;
     PRow "ToolkitVersion" 0x052007010a000000060e2b3401010102 (Some 0x3c07) 0x0301020000000000060e2b3401040101 true false;
     PRow "Platform" 0x0520070106010000060e2b3401010102 (Some 0x3c08) 0x0110020000000000060e2b3401040101 true false;
     PRow "GenerationAUID" 0x0520070101000000060e2b3401010102 (Some 0x3c09) 0x0103010000000000060e2b3401040101 false false];
   CRow "Locator" 0x0d01010101013100060e2b3402060101 (Some 0x0d01010101010100060e2b3402060101) false
    [];
   CRow "NetworkLocator" 0x0d01010101013200060e2b3402060101 (Some 0x0d01010101013100060e2b3402060101) true
    [PRow "URLString" 0x0102010101000000060e2b3401010101 (Some 0x4001) 0x0110020000000000060e2b3401040101 false false];
   CRow "TextLocator" 0x0d01010101013300060e2b3402060101 (Some 0x0d01010101013100060e2b3402060101) true
    [PRow "Name" 0x0104010201000000060e2b3401010102 (Some 0x4101) 0x0110020000000000060e2b3401040101 false false];
   CRow "Mob" 0x0d01010101013400060e2b3402060101 (Some 0x0d01010101010100060e2b3402060101) false
    [PRow "MobID" 0x0101151000000000060e2b3401010101 (Some 0x4401) 0x0103020000000000060e2b3401040101 false true;
     PRow "Name" 0x0103030201000000060e2b3401010101 (Some 0x4402) 0x0110020000000000060e2b3401040101 true false;
     PRow "Slots" 0x0601010406050000060e2b3401010102 (Some 0x4403) 0x0506050000000000060e2b3401040101 false false;
     PRow "LastModified" 0x0702011002050000060e2b3401010102 (Some 0x4404) 0x0301070000000000060e2b3401040101 false false;
     PRow "CreationTime" 0x0702011001030000060e2b3401010102 (Some 0x4405) 0x0301070000000000060e2b3401040101 false false;
     PRow "UserComments" 0x030201020c000000060e2b3401010102 (Some 0x4406) 0x0506080000000000060e2b3401040101 true false;
     PRow "KLVData" 0x0301021003000000060e2b3401010102 (Some 0x4407) 0x0506090000000000060e2b3401040101 true false;
     PRow "Attributes" 0x0301021007000000060e2b3401010107 (Some 0x4409) 0x0506080000000000060e2b3401040101 true false;
     PRow "UsageCode" 0x0501010800000000060e2b3401010107 (Some 0x4408) 0x0202010400000000060e2b3401040101 true false];
   CRow "CompositionMob" 0x0d01010101013500060e2b3402060101 (Some 0x0d01010101013400060e2b3402060101) true
    [PRow "DefaultFadeLength" 0x0702020101050100060e2b3401010102 (Some 0x4501) 0x0101200200000000060e2b3401040101 true false;
     PRow "DefFadeType" 0x0530020100000000060e2b3401010101 (Some 0x4502) 0x0201010700000000060e2b3401040101 true false;
     PRow "DefFadeEditUnit" 0x0530040300000000060e2b3401010102 (Some 0x4503) 0x0301010000000000060e2b3401040101 true false;
     PRow "Rendering" 0x06010104010a0000060e2b3401010108 (Some 0x4504) 0x0103020000000000060e2b3401040101 true false];
   CRow "MasterMob" 0x0d01010101013600060e2b3402060101 (Some 0x0d01010101013400060e2b3402060101) true
    [];
   CRow "SourceMob" 0x0d01010101013700060e2b3402060101 (Some 0x0d01010101013400060e2b3402060101) true
    [PRow "EssenceDescription" 0x0601010402030000060e2b3401010102 (Some 0x4701) 0x0502030000000000060e2b3401040101 false false];
   CRow "MobSlot" 0x0d01010101013800060e2b3402060101 (Some 0x0d01010101010100060e2b3402060101) false
    [PRow "SlotID" 0x0107010100000000060e2b3401010102 (Some 0x4801) 0x0101030000000000060e2b3401040101 false false;
     PRow "SlotName" 0x0107010201000000060e2b3401010102 (Some 0x4802) 0x0110020000000000060e2b3401040101 true false;
     PRow "Segment" 0x0601010402040000060e2b3401010102 (Some 0x4803) 0x0502060000000000060e2b3401040101 false false;
     PRow "PhysicalTrackNumber" 0x0104010300000000060e2b3401010102 (Some 0x4804) 0x0101030000000000060e2b3401040101 true false];
   CRow "EventMobSlot" 0x0d01010101013900060e2b3402060101 (Some 0x0d01010101013800060e2b3402060101) true
    [PRow "EditRate" 0x0530040200000000060e2b3401010102 (Some 0x4901) 0x0301010000000000060e2b3401040101 false false;
     PRow "EventSlotOrigin" 0x07020103010b0000060e2b3401010105 (Some 0x4902) 0x0101200100000000060e2b3401040101 true false];
   CRow "StaticMobSlot" 0x0d01010101013a00060e2b3402060101 (Some 0x0d01010101013800060e2b3402060101) true
    [];
   CRow "TimelineMobSlot" 0x0d01010101013b00060e2b3402060101 (Some 0x0d01010101013800060e2b3402060101) true
    [PRow "EditRate" 0x0530040500000000060e2b3401010102 (Some 0x4b01) 0x0301010000000000060e2b3401040101 false false;
     PRow "Origin" 0x0702010301030000060e2b3401010102 (Some 0x4b02) 0x0101200100000000060e2b3401040101 false false;
     PRow "MarkIn" 0x07020103010c0000060e2b3401010107 (Some 0x4b03) 0x0101200100000000060e2b3401040101 true false;
     PRow "MarkOut" 0x0702010302030000060e2b3401010107 (Some 0x4b04) 0x0101200100000000060e2b3401040101 true false;
     PRow "UserPos" 0x07020103010d0000060e2b3401010107 (Some 0x4b05) 0x0101200100000000060e2b3401040101 true false];
   CRow "Parameter" 0x0d01010101013c00060e2b3402060101 (Some 0x0d01010101010100060e2b3402060101) false
    [PRow "Definition" 0x0601010401040000060e2b3401010102 (Some 0x4c01) 0x0103010000000000060e2b3401040101 false false];
   CRow "ConstantValue" 0x0d01010101013d00060e2b3402060101 (Some 0x0d01010101013c00060e2b3402060101) true
    [PRow "Value" 0x0530050700000000060e2b3401010102 (Some 0x4d01) 0x0410030000000000060e2b3401040101 false false];
   CRow "VaryingValue" 0x0d01010101013e00060e2b3402060101 (Some 0x0d01010101013c00060e2b3402060101) true
    [PRow "Interpolation" 0x0601010401050000060e2b3401010102 (Some 0x4e01) 0x0501050000000000060e2b3401040101 false false;
     PRow "PointList" 0x0601010406060000060e2b3401010102 (Some 0x4e02) 0x0506020000000000060e2b3401040101 false false];
   CRow "TaggedValue" 0x0d01010101013f00060e2b3402060101 (Some 0x0d01010101010100060e2b3402060101) true
    [PRow "Name" 0x0302010209010000060e2b3401010102 (Some 0x5001) 0x0110020000000000060e2b3401040101 false false;
     PRow "Value" 0x030201020a010000060e2b3401010102 (Some 0x5003) 0x0410030000000000060e2b3401040101 false false];
   CRow "KLVData" 0x0d01010101014000060e2b3402060101 (Some 0x0d01010101010100060e2b3402060101) true
    [PRow "Value" 0x0301021002000000060e2b3401010102 (Some 0x5101) 0x0410040000000000060e2b3401040101 false false];
   CRow "DescriptiveMarker" 0x0d01010101014100060e2b3402060101 (Some 0x0d01010101010800060e2b3402060101) true
    [PRow "DescribedSlots" 0x0107010500000000060e2b3401010104 (Some 0x6102) 0x0403020000000000060e2b3401040101 true false;
     PRow "Description" 0x06010104020c0000060e2b3401010105 (Some 0x6101) 0x05021f0000000000060e2b3401040101 true false];
   CRow "SoundDescriptor" 0x0d01010101014200060e2b3402060101 (Some 0x0d01010101012500060e2b3402060101) true
    [PRow "AudioSamplingRate" 0x0402030101010000060e2b3401010105 (Some 0x3d03) 0x0301010000000000060e2b3401040101 false false;
     PRow "Locked" 0x0402030104000000060e2b3401010104 (Some 0x3d02) 0x0104010000000000060e2b3401040101 true false;
     PRow "AudioRefLevel" 0x0402010103000000060e2b3401010101 (Some 0x3d04) 0x0101050000000000060e2b3401040101 true false;
     PRow "ElectroSpatial" 0x0402010101000000060e2b3401010101 (Some 0x3d05) 0x0201012200000000060e2b3401040101 true false;
     PRow "Channels" 0x0402010104000000060e2b3401010105 (Some 0x3d07) 0x0101030000000000060e2b3401040101 false false;
     PRow "QuantizationBits" 0x0402030304000000060e2b3401010104 (Some 0x3d01) 0x0101030000000000060e2b3401040101 false false;
     PRow "DialNorm" 0x0402070100000000060e2b3401010105 (Some 0x3d0c) 0x0101050000000000060e2b3401040101 true false;
     PRow "Compression" 0x0402040200000000060e2b3401010102 (Some 0x3d06) 0x0103010000000000060e2b3401040101 true false];
   CRow "DataEssenceDescriptor" 0x0d01010101014300060e2b3402060101 (Some 0x0d01010101012500060e2b3402060101) true
    [PRow "DataEssenceCoding" 0x0403030200000000060e2b3401010103 (Some 0x3e01) 0x0103010000000000060e2b3401040101 true false];
   CRow "MultipleDescriptor" 0x0d01010101014400060e2b3402060101 (Some 0x0d01010101012500060e2b3402060101) true
    [PRow "FileDescriptors" 0x06010104060b0000060e2b3401010104 (Some 0x3f01) 0x05060b0000000000060e2b3401040101 false false];
   CRow "DescriptiveClip" 0x0d01010101014500060e2b3402060101 (Some 0x0d01010101011100060e2b3402060101) true
    [PRow "DescribedSlotIDs" 0x0107010600000000060e2b3401010105 (Some 0x6103) 0x0403020000000000060e2b3401040101 true false];
   CRow "AES3PCMDescriptor" 0x0d01010101014700060e2b3402060101 (Some 0x0d01010101014800060e2b3402060101) true
    [PRow "Emphasis" 0x0402050106000000060e2b3401010105 (Some 0x3d0d) 0x0201012300000000060e2b3401040101 true false;
     PRow "BlockStartOffset" 0x0402030203000000060e2b3401010105 (Some 0x3d0f) 0x0101020000000000060e2b3401040101 true false;
     PRow "AuxBitsMode" 0x0402050101000000060e2b3401010105 (Some 0x3d08) 0x0201012400000000060e2b3401040101 true false;
     PRow "ChannelStatusMode" 0x0402050102000000060e2b3401010105 (Some 0x3d10) 0x04010a0000000000060e2b3401040101 true false;
     PRow "FixedChannelStatusData" 0x0402050103000000060e2b3401010105 (Some 0x3d11) 0x0401010000000000060e2b3401040101 true false;
     PRow "UserDataMode" 0x0402050104000000060e2b3401010105 (Some 0x3d12) 0x04010b0000000000060e2b3401040101 true false;
     PRow "FixedUserData" 0x0402050105000000060e2b3401010105 (Some 0x3d13) 0x0401010000000000060e2b3401040101 true false];
   CRow "PCMDescriptor" 0x0d01010101014800060e2b3402060101 (Some 0x0d01010101014200060e2b3402060101) true
    [PRow "BlockAlign" 0x0402030201000000060e2b3401010105 (Some 0x3d0a) 0x0101020000000000060e2b3401040101 false false;
     PRow "SequenceOffset" 0x0402030202000000060e2b3401010105 (Some 0x3d0b) 0x0101010000000000060e2b3401040101 true false;
     PRow "AverageBPS" 0x0402030305000000060e2b3401010105 (Some 0x3d09) 0x0101030000000000060e2b3401040101 false false;
     PRow "ChannelAssignment" 0x0402010105000000060e2b3401010107 (Some 0x3d32) 0x0103010000000000060e2b3401040101 true false;
     PRow "PeakEnvelopeVersion" 0x0402030106000000060e2b3401010108 (Some 0x3d29) 0x0101030000000000060e2b3401040101 true false;
     PRow "PeakEnvelopeFormat" 0x0402030107000000060e2b3401010108 (Some 0x3d2a) 0x0101030000000000060e2b3401040101 true false;
     PRow "PointsPerPeakValue" 0x0402030108000000060e2b3401010108 (Some 0x3d2b) 0x0101030000000000060e2b3401040101 true false;
     PRow "PeakEnvelopeBlockSize" 0x0402030109000000060e2b3401010108 (Some 0x3d2c) 0x0101030000000000060e2b3401040101 true false;
     PRow "PeakChannels" 0x040203010a000000060e2b3401010108 (Some 0x3d2d) 0x0101030000000000060e2b3401040101 true false;
     PRow "PeakFrames" 0x040203010b000000060e2b3401010108 (Some 0x3d2e) 0x0101030000000000060e2b3401040101 true false;
     PRow "PeakOfPeaksPosition" 0x040203010c000000060e2b3401010108 (Some 0x3d2f) 0x0101200100000000060e2b3401040101 true false;
     PRow "PeakEnvelopeTimestamp" 0x040203010d000000060e2b3401010108 (Some 0x3d30) 0x0301070000000000060e2b3401040101 true false;
     PRow "PeakEnvelopeData" 0x040203010e000000060e2b3401010108 (Some 0x3d31) 0x0410020000000000060e2b3401040101 true false];
   CRow "PhysicalDescriptor" 0x0d01010101014900060e2b3402060101 (Some 0x0d01010101012400060e2b3402060101) false
    [];
   CRow "ImportDescriptor" 0x0d01010101014a00060e2b3402060101 (Some 0x0d01010101014900060e2b3402060101) true
    [];
   CRow "RecordingDescriptor" 0x0d01010101014b00060e2b3402060101 (Some 0x0d01010101014900060e2b3402060101) true
    [];
   CRow "TaggedValueDefinition" 0x0d01010101014c00060e2b3402060101 (Some 0x0d01010101011a00060e2b3402060101) true
    [];
   CRow "KLVDataDefinition" 0x0d01010101014d00060e2b3402060101 (Some 0x0d01010101011a00060e2b3402060101) true
    [PRow "KLVDataType" 0x0601010401090000060e2b3401010107 (Some 0x4d12) 0x0501090000000000060e2b3401040101 true false];
   CRow "AuxiliaryDescriptor" 0x0d01010101014e00060e2b3402060101 (Some 0x0d01010101014900060e2b3402060101) true
    [PRow "MimeType" 0x0409020100000000060e2b3401010107 (Some 0x4e11) 0x0110020000000000060e2b3401040101 false false;
     PRow "CharSet" 0x0409030000000000060e2b3401010108 (Some 0x4e12) 0x0110020000000000060e2b3401040101 true false];
   CRow "RIFFChunk" 0x0d01010101014f00060e2b3402060101 (Some 0x0d01010101010100060e2b3402060101) true
    [PRow "ChunkID" 0x0406080200000000060e2b3401010108 (Some 0x4f01) 0x0101030000000000060e2b3401040101 false false;
     PRow "ChunkLength" 0x0406090300000000060e2b3401010108 (Some 0x4f02) 0x0101030000000000060e2b3401040101 false false;
     PRow "ChunkData" 0x0407040000000000060e2b3401010108 (Some 0x4f03) 0x0410020000000000060e2b3401040101 false false];
   CRow "BWFImportDescriptor" 0x0d01010101015000060e2b3402060101 (Some 0x0d01010101014a00060e2b3402060101) true
    [PRow "QltyFileSecurityReport" 0x0402030205000000060e2b3401010105 (Some 0x3d15) 0x0101030000000000060e2b3401040101 true false;
     PRow "QltyFileSecurityWave" 0x0402030206000000060e2b3401010105 (Some 0x3d16) 0x0101030000000000060e2b3401040101 true false;
     PRow "BextCodingHistory" 0x0402050201010000060e2b3401010105 (Some 0x3d21) 0x0110020000000000060e2b3401040101 true false;
     PRow "QltyBasicData" 0x0402050202010000060e2b3401010105 (Some 0x3d22) 0x0110020000000000060e2b3401040101 true false;
     PRow "QltyStartOfModulation" 0x0402050203010000060e2b3401010105 (Some 0x3d23) 0x0110020000000000060e2b3401040101 true false;
     PRow "QltyQualityEvent" 0x0402050204010000060e2b3401010105 (Some 0x3d24) 0x0110020000000000060e2b3401040101 true false;
     PRow "QltyEndOfModulation" 0x0402050205010000060e2b3401010105 (Some 0x3d25) 0x0110020000000000060e2b3401040101 true false;
     PRow "QltyQualityParameter" 0x0402050206010000060e2b3401010105 (Some 0x3d26) 0x0110020000000000060e2b3401040101 true false;
     PRow "QltyOperatorComment" 0x0402050207010000060e2b3401010105 (Some 0x3d27) 0x0110020000000000060e2b3401040101 true false;
     PRow "QltyCueSheet" 0x0402050208010000060e2b3401010105 (Some 0x3d28) 0x0110020000000000060e2b3401040101 true false;
     PRow "UnknownBWFChunks" 0x06010104060f0000060e2b3401010108 (Some 0x3d33) 0x05060c0000000000060e2b3401040101 true false];
   CRow "MPEGVideoDescriptor" 0x0d01010101015100060e2b3402060101 (Some 0x0d01010101012800060e2b3402060101) true
    [PRow "SingleSequence" 0x0401060201020000060e2b3401010105 None 0x0104010000000000060e2b3401040101 true false;
     PRow "ConstantBPictureCount" 0x0401060201030000060e2b3401010105 None 0x0104010000000000060e2b3401040101 true false;
     PRow "CodedContentScanning" 0x0401060201040000060e2b3401010105 None 0x0201012a00000000060e2b3401040101 true false;
     PRow "LowDelay" 0x0401060201050000060e2b3401010105 None 0x0104010000000000060e2b3401040101 true false;
     PRow "ClosedGOP" 0x0401060201060000060e2b3401010105 None 0x0104010000000000060e2b3401040101 true false;
     PRow "IdenticalGOP" 0x0401060201070000060e2b3401010105 None 0x0104010000000000060e2b3401040101 true false;
     PRow "MaxGOP" 0x0401060201080000060e2b3401010105 None 0x0101020000000000060e2b3401040101 true false;
     PRow "MaxBPictureCount" 0x0401060201090000060e2b3401010105 None 0x0101020000000000060e2b3401040101 true false;
     PRow "BitRate" 0x04010602010b0000060e2b3401010105 None 0x0101030000000000060e2b3401040101 true false;
     PRow "ProfileAndLevel" 0x04010602010a0000060e2b3401010105 None 0x0101010000000000060e2b3401040101 true false];
   CRow "ClassDefinition" 0x0d01010102010000060e2b3402060101 (Some 0x0d01010102240000060e2b3402060101) true
    [PRow "ParentClass" 0x0601010701000000060e2b3401010102 (Some 0x8) 0x0501010000000000060e2b3401040101 false false;
     PRow "Properties" 0x0601010702000000060e2b3401010102 (Some 0x9) 0x05050b0000000000060e2b3401040101 true false;
     PRow "IsConcrete" 0x0601010703000000060e2b3401010102 (Some 0xa) 0x0104010000000000060e2b3401040101 false false];
   CRow "PropertyDefinition" 0x0d01010102020000060e2b3402060101 (Some 0x0d01010102240000060e2b3402060101) true
    [PRow "Type" 0x0601010704000000060e2b3401010102 (Some 0xb) 0x0103010000000000060e2b3401040101 false false;
     PRow "IsOptional" 0x0301020201000000060e2b3401010102 (Some 0xc) 0x0104010000000000060e2b3401040101 false false;
     PRow "LocalIdentification" 0x0601010705000000060e2b3401010102 (Some 0xd) 0x0101020000000000060e2b3401040101 false false;
     PRow "IsUniqueIdentifier" 0x0601010706000000060e2b3401010102 (Some 0xe) 0x0104010000000000060e2b3401040101 true false];
   CRow "TypeDefinition" 0x0d01010102030000060e2b3402060101 (Some 0x0d01010102240000060e2b3402060101) false
    [];
   CRow "TypeDefinitionInteger" 0x0d01010102040000060e2b3402060101 (Some 0x0d01010102030000060e2b3402060101) true
    [PRow "Size" 0x0301020301000000060e2b3401010102 (Some 0xf) 0x0101010000000000060e2b3401040101 false false;
     PRow "IsSigned" 0x0301020302000000060e2b3401010102 (Some 0x10) 0x0104010000000000060e2b3401040101 false false];
   CRow "TypeDefinitionStrongObjectReference" 0x0d01010102050000060e2b3402060101 (Some 0x0d01010102030000060e2b3402060101) true
    [PRow "ReferencedType" 0x0601010709000000060e2b3401010102 (Some 0x11) 0x0501010000000000060e2b3401040101 false false];
   CRow "TypeDefinitionWeakObjectReference" 0x0d01010102060000060e2b3402060101 (Some 0x0d01010102030000060e2b3402060101) true
    [PRow "ReferencedType" 0x060101070a000000060e2b3401010102 (Some 0x12) 0x0501010000000000060e2b3401040101 false false;
     PRow "TargetSet" 0x030102030b000000060e2b3401010102 (Some 0x13) 0x0401060000000000060e2b3401040101 false false];
   CRow "TypeDefinitionEnumeration" 0x0d01010102070000060e2b3402060101 (Some 0x0d01010102030000060e2b3402060101) true
    [PRow "ElementType" 0x060101070b000000060e2b3401010102 (Some 0x14) 0x0501090000000000060e2b3401040101 false false;
     PRow "ElementNames" 0x0301020304000000060e2b3401010102 (Some 0x15) 0x0401050000000000060e2b3401040101 false false;
     PRow "ElementValues" 0x0301020305000000060e2b3401010102 (Some 0x16) 0x0401040000000000060e2b3401040101 false false];
   CRow "SubDescriptor" 0x0d01010101015900060e2b3402060101 (Some 0x0d01010101010100060e2b3402060101) false
    [];
   CRow "JPEG2000SubDescriptor" 0x0d01010101015a00060e2b3402060101 (Some 0x0d01010101015900060e2b3402060101) true
    [PRow "Rsiz" 0x0401060301000000060e2b340101010a None 0x0101020000000000060e2b3401040101 false false;
     PRow "Xsiz" 0x0401060302000000060e2b340101010a None 0x0101030000000000060e2b3401040101 false false;
     PRow "Ysiz" 0x0401060303000000060e2b340101010a None 0x0101030000000000060e2b3401040101 false false;
     PRow "XOsiz" 0x0401060304000000060e2b340101010a None 0x0101030000000000060e2b3401040101 false false;
     PRow "YOsiz" 0x0401060305000000060e2b340101010a None 0x0101030000000000060e2b3401040101 false false;
     PRow "XTsiz" 0x0401060306000000060e2b340101010a None 0x0101030000000000060e2b3401040101 false false;
     PRow "YTsiz" 0x0401060307000000060e2b340101010a None 0x0101030000000000060e2b3401040101 false false;
     PRow "XTOsiz" 0x0401060308000000060e2b340101010a None 0x0101030000000000060e2b3401040101 false false;
     PRow "YTOsiz" 0x0401060309000000060e2b340101010a None 0x0101030000000000060e2b3401040101 false false;
     PRow "Csiz" 0x040106030a000000060e2b340101010a None 0x0101020000000000060e2b3401040101 false false;
     PRow "PictureComponentSizing" 0x040106030b000000060e2b340101010a None 0x0401010000000000060e2b3401040101 false false;
     PRow "CodingStyleDefault" 0x040106030c000000060e2b340101010a None 0x0410010000000000060e2b3401040101 true false;
     PRow "QuantizationDefault" 0x040106030d000000060e2b340101010a None 0x0410010000000000060e2b3401040101 true false;
     PRow "J2CLayout" 0x040106030e000000060e2b340101010e None 0x0402010000000000060e2b3401040101 true false];
   CRow "VBIDataDescriptor" 0x0d01010101015b00060e2b3402060101 (Some 0x0d01010101014300060e2b3402060101) true
    [];
   CRow "ANCDataDescriptor" 0x0d01010101015c00060e2b3402060101 (Some 0x0d01010101014300060e2b3402060101) true
    [];
   CRow "ContainerConstraintsSubDescriptor" 0x0d01010101016700060e2b3402060101 (Some 0x0d01010101015900060e2b3402060101) true
    [];
   CRow "MPEG4VisualSubDescriptor" 0x0d01010101016800060e2b3402060101 (Some 0x0d01010101015900060e2b3402060101) true
    [PRow "MPEG4VisualSingleSequence" 0x0401060202020000060e2b340101010d None 0x0104010000000000060e2b3401040101 true false;
     PRow "MPEG4VisualConstantBVOPs" 0x0401060202030000060e2b340101010d None 0x0104010000000000060e2b3401040101 true false;
     PRow "MPEG4VisualCodedContentType" 0x0401060202040000060e2b340101010d None 0x0201012d00000000060e2b3401040101 true false;
     PRow "MPEG4VisualLowDelay" 0x0401060202050000060e2b340101010d None 0x0104010000000000060e2b3401040101 true false;
     PRow "MPEG4VisualClosedGOV" 0x0401060202060000060e2b340101010d None 0x0104010000000000060e2b3401040101 true false;
     PRow "MPEG4VisualIdenticalGOV" 0x0401060202070000060e2b340101010d None 0x0104010000000000060e2b3401040101 true false;
     PRow "MPEG4VisualMaxGOV" 0x0401060202080000060e2b340101010d None 0x0101020000000000060e2b3401040101 true false;
     PRow "MPEG4VisualBVOPCount" 0x0401060202090000060e2b340101010d None 0x0101020000000000060e2b3401040101 true false;
     PRow "MPEG4VisualProfileAndLevel" 0x04010602020a0000060e2b340101010d None 0x0101010000000000060e2b3401040101 true false;
     PRow "MPEG4VisualBitRate" 0x04010602020b0000060e2b340101010d None 0x0101030000000000060e2b3401040101 true false];
   CRow "MCALabelSubDescriptor" 0x0d01010101016a00060e2b3402060101 (Some 0x0d01010101015900060e2b3402060101) false
    [PRow "MCALabelDictionaryID" 0x0103070101000000060e2b340101010e None 0x0103010000000000060e2b3401040101 false false;
     PRow "MCALinkID" 0x0103070105000000060e2b340101010e None 0x0103030000000000060e2b3401040101 false false;
     PRow "MCATagSymbol" 0x0103070102000000060e2b340101010e None 0x0110020000000000060e2b3401040101 false false;
     PRow "MCATagName" 0x0103070103000000060e2b340101010e None 0x0110020000000000060e2b3401040101 true false;
     PRow "MCAChannelID" 0x0103040a00000000060e2b340101010e None 0x0101030000000000060e2b3401040101 true false;
     PRow "RFC5646SpokenLanguage" 0x0301010203150000060e2b340101010d None 0x0110040000000000060e2b3401040101 true false;
     PRow "MCATitle" 0x0105100000000000060e2b340101010e None 0x0110020000000000060e2b3401040101 true false;
     PRow "MCATitleVersion" 0x0105110000000000060e2b340101010e None 0x0110020000000000060e2b3401040101 true false;
     PRow "MCATitleSubVersion" 0x0105120000000000060e2b340101010e None 0x0110020000000000060e2b3401040101 true false;
     PRow "MCAEpisode" 0x0105130000000000060e2b340101010e None 0x0110020000000000060e2b3401040101 true false;
     PRow "MCAPartitionKind" 0x0104010500000000060e2b340101010e None 0x0110020000000000060e2b3401040101 true false;
     PRow "MCAPartitionNumber" 0x0104010600000000060e2b340101010e None 0x0110020000000000060e2b3401040101 true false;
     PRow "MCAAudioContentKind" 0x0302010220000000060e2b340101010e None 0x0110020000000000060e2b3401040101 true false;
     PRow "MCAAudioElementKind" 0x0302010221000000060e2b340101010e None 0x0110020000000000060e2b3401040101 true false];
   CRow "AudioChannelLabelSubDescriptor" 0x0d01010101016b00060e2b3402060101 (Some 0x0d01010101016a00060e2b3402060101) true
    [PRow "SoundfieldGroupLinkID" 0x0103070106000000060e2b340101010e None 0x0103030000000000060e2b3401040101 true false];
   CRow "SoundfieldGroupLabelSubDescriptor" 0x0d01010101016c00060e2b3402060101 (Some 0x0d01010101016a00060e2b3402060101) true
    [PRow "GroupOfSoundfieldGroupsLinkID" 0x0103070104000000060e2b340101010e None 0x0401150000000000060e2b3401040101 true false];
   CRow "GroupOfSoundfieldGroupsLabelSubDescriptor" 0x0d01010101016d00060e2b3402060101 (Some 0x0d01010101016a00060e2b3402060101) true
    [];
   CRow "AVCSubDescriptor" 0x0d01010101016e00060e2b3402060101 (Some 0x0d01010101015900060e2b3402060101) true
    [PRow "AVCConstantBPictureFlag" 0x0401060601030000060e2b340101010e None 0x0104010000000000060e2b3401040101 true false;
     PRow "AVCCodedContentKind" 0x0401060601040000060e2b340101010e None 0x0201012c00000000060e2b3401040101 true false;
     PRow "AVCClosedGOPIndicator" 0x0401060601060000060e2b340101010e None 0x0104010000000000060e2b3401040101 true false;
     PRow "AVCIdenticalGOPIndicator" 0x0401060601070000060e2b340101010e None 0x0104010000000000060e2b3401040101 true false;
     PRow "AVCMaximumGOPSize" 0x0401060601080000060e2b340101010e None 0x0101020000000000060e2b3401040101 true false;
     PRow "AVCMaximumBPictureCount" 0x0401060601090000060e2b340101010e None 0x0101020000000000060e2b3401040101 true false;
     PRow "AVCProfile" 0x04010606010a0000060e2b340101010e None 0x0101010000000000060e2b3401040101 true false;
     PRow "AVCMaximumBitRate" 0x04010606010b0000060e2b340101010e None 0x0101030000000000060e2b3401040101 true false;
     PRow "AVCProfileConstraint" 0x04010606010c0000060e2b340101010e None 0x0101010000000000060e2b3401040101 true false;
     PRow "AVCLevel" 0x04010606010d0000060e2b340101010e None 0x0101010000000000060e2b3401040101 true false;
     PRow "AVCDecodingDelay" 0x04010606010e0000060e2b340101010e None 0x0101010000000000060e2b3401040101 false false;
     PRow "AVCMaximumRefFrames" 0x04010606010f0000060e2b340101010e None 0x0101010000000000060e2b3401040101 true false;
     PRow "AVCSequenceParameterSetFlag" 0x0401060601100000060e2b340101010e None 0x0101010000000000060e2b3401040101 true false;
     PRow "AVCPictureParameterSetFlag" 0x0401060601110000060e2b340101010e None 0x0101010000000000060e2b3401040101 true false;
     PRow "AVCAverageBitRate" 0x0401060601140000060e2b340101010e None 0x0101030000000000060e2b3401040101 true false];
   CRow "MPEGAudioDescriptor" 0x0d01010101015e00060e2b3402060101 (Some 0x0d01010101014200060e2b3402060101) true
    [PRow "MPEGAudioBitRate" 0x0402040301020000060e2b340101010a None 0x0101030000000000060e2b3401040101 true false];
   CRow "TypeDefinitionFixedArray" 0x0d01010102080000060e2b3402060101 (Some 0x0d01010102030000060e2b3402060101) true
    [PRow "ElementType" 0x060101070c000000060e2b3401010102 (Some 0x17) 0x0501090000000000060e2b3401040101 false false;
     PRow "ElementCount" 0x0301020303000000060e2b3401010102 (Some 0x18) 0x0101030000000000060e2b3401040101 false false];
   CRow "TypeDefinitionVariableArray" 0x0d01010102090000060e2b3402060101 (Some 0x0d01010102030000060e2b3402060101) true
    [PRow "ElementType" 0x060101070d000000060e2b3401010102 (Some 0x19) 0x0501090000000000060e2b3401040101 false false];
   CRow "TypeDefinitionSet" 0x0d010101020a0000060e2b3402060101 (Some 0x0d01010102030000060e2b3402060101) true
    [PRow "ElementType" 0x060101070e000000060e2b3401010102 (Some 0x1a) 0x0501090000000000060e2b3401040101 false false];
   CRow "TypeDefinitionString" 0x0d010101020b0000060e2b3402060101 (Some 0x0d01010102030000060e2b3402060101) true
    [PRow "ElementType" 0x060101070f000000060e2b3401010102 (Some 0x1b) 0x0501090000000000060e2b3401040101 false false];
   CRow "TypeDefinitionStream" 0x0d010101020c0000060e2b3402060101 (Some 0x0d01010102030000060e2b3402060101) true
    [];
   CRow "TypeDefinitionRecord" 0x0d010101020d0000060e2b3402060101 (Some 0x0d01010102030000060e2b3402060101) true
    [PRow "MemberTypes" 0x0601010711000000060e2b3401010102 (Some 0x1c) 0x0504020000000000060e2b3401040101 false false;
     PRow "MemberNames" 0x0301020306000000060e2b3401010102 (Some 0x1d) 0x0401050000000000060e2b3401040101 false false];
   CRow "TypeDefinitionRename" 0x0d010101020e0000060e2b3402060101 (Some 0x0d01010102030000060e2b3402060101) true
    [PRow "RenamedType" 0x0601010712000000060e2b3401010102 (Some 0x1e) 0x0501090000000000060e2b3401040101 false false];
   CRow "TypeDefinitionExtendibleEnumeration" 0x0d01010102200000060e2b3402060101 (Some 0x0d01010102030000060e2b3402060101) true
    [PRow "ElementNames" 0x0301020307000000060e2b3401010102 (Some 0x1f) 0x0401050000000000060e2b3401040101 false false;
     PRow "ElementValues" 0x0301020308000000060e2b3401010102 (Some 0x20) 0x0401060000000000060e2b3401040101 false false];
   CRow "TypeDefinitionIndirect" 0x0d01010102210000060e2b3402060101 (Some 0x0d01010102030000060e2b3402060101) true
    [];
   CRow "TypeDefinitionOpaque" 0x0d01010102220000060e2b3402060101 (Some 0x0d01010102210000060e2b3402060101) true
    [];
   CRow "TypeDefinitionCharacter" 0x0d01010102230000060e2b3402060101 (Some 0x0d01010102030000060e2b3402060101) true
    [];
   CRow "TypeDefinitionGenericCharacter" 0x0e04010100000000060e2b3402060101 (Some 0x0d01010102030000060e2b3402060101) true
    [PRow "CharacterSize" 0x0e04010101010111060e2b3401010101 None 0x0101010000000000060e2b3401040101 false false];
   CRow "MetaDefinition" 0x0d01010102240000060e2b3402060101 None false
    [PRow "Identification" 0x0601010713000000060e2b3401010102 (Some 0x5) 0x0103010000000000060e2b3401040101 false true;
     PRow "Name" 0x0302040102010000060e2b3401010102 (Some 0x6) 0x0110020000000000060e2b3401040101 false false;
     PRow "Description" 0x0601010714010000060e2b3401010102 (Some 0x7) 0x0110020000000000060e2b3401040101 true false];
   CRow "MetaDictionary" 0x0d01010102250000060e2b3402060101 None true
    [PRow "ClassDefinitions" 0x0601010707000000060e2b3401010102 (Some 0x3) 0x0505010000000000060e2b3401040101 true false;
     PRow "TypeDefinitions" 0x0601010708000000060e2b3401010102 (Some 0x4) 0x05050c0000000000060e2b3401040101 true false];
   CRow "DescriptiveObject" 0x0d01040000000000060e2b3402060101 (Some 0x0d01010101010100060e2b3402060101) false
    [];
   CRow "DescriptiveFramework" 0x0d01040100000000060e2b3402060101 (Some 0x0d01010101010100060e2b3402060101) false
    []].

(** src/aaf2/model/classdefs.py:728-760 *)
Definition base_aliases : list (string * string) :=
  [("ClassDef", "ClassDefinition");
   ("CodecDef", "CodecDefinition");
   ("DataDef", "DataDefinition");
   ("DefObject", "DefinitionObject");
   ("Edgecode", "EdgeCode");
   ("OperationDef", "OperationDefinition");
   ("Object", "InterchangeObject");
   ("ParameterDef", "ParameterDefinition");
   ("InterpolationDef", "InterpolationDefinition");
   ("PropertyDef", "PropertyDefinition");
   ("TypeDef", "TypeDefinition");
   ("TypeDefCharacter", "TypeDefinitionCharacter");
   ("TypeDefEnum", "TypeDefinitionEnumeration");
   ("TypeDefExtEnum", "TypeDefinitionExtendibleEnumeration");
   ("TypeDefFixedArray", "TypeDefinitionFixedArray");
   ("TypeDefInt", "TypeDefinitionInteger");
   ("TypeDefRecord", "TypeDefinitionRecord");
   ("TypeDefRename", "TypeDefinitionRename");
   ("TypeDefSet", "TypeDefinitionSet");
   ("TypeDefStream", "TypeDefinitionStream");
   ("TypeDefString", "TypeDefinitionString");
   ("TypeDefIndirect", "TypeDefinitionIndirect");
   ("TypeDefOpaque", "TypeDefinitionOpaque");
   ("TypeDefStrongObjRef", "TypeDefinitionStrongObjectReference");
   ("TypeDefVariableArray", "TypeDefinitionVariableArray");
   ("TypeDefWeakObjRef", "TypeDefinitionWeakObjectReference");
   ("ContainerDef", "ContainerDefinition");
   ("PluginDef", "PluginDefinition");
   ("AvidTypeDefinitionGenericCharacter", "TypeDefinitionGenericCharacter");
   ("TaggedValueDef", "TaggedValueDefinition");
   ("TypeDefGenericCharacter", "TypeDefinitionGenericCharacter")].

(** src/aaf2/model/ext/classdefs.py:1-181 *)
Definition ext_classes : list crow :=
  [CRow "CommentMarker" 0x0d01010101010800060e2b3402060101 (Some 0x0d01010101010600060e2b3402060101) true
    [PRow "CommentMarkerAnnotationList" 0x6d64dd66e5c7488fb0e4272c932378a6 None 0x0110020000000000060e2b3401040101 true false;
     PRow "CommentMarkerAttributeList" 0xc72cc817aac5499baf34bc47fec1eaa8 None 0x0506080000000000060e2b3401040101 true false;
     PRow "CommentMarkerColor" 0xe96e6d44c38311d3a069006094eb75cb None 0xe96e6d43c38311d3a069006094eb75cb true false;
     PRow "CommentMarkerDate" 0xc4c45d9b096711d4a08a006094eb75cb None 0x0110020000000000060e2b3401040101 true false;
     PRow "CommentMarkerIcon" 0xc4c45d9d096711d4a08a006094eb75cb None 0x0101070000000000060e2b3401040101 true false;
     PRow "CommentMarkerStatus" 0xc4c45d9e096711d4a08a006094eb75cb None 0x0101070000000000060e2b3401040101 true false;
     PRow "CommentMarkerTime" 0xc4c45d9c096711d4a08a006094eb75cb None 0x0110020000000000060e2b3401040101 true false;
     PRow "CommentMarkerUser" 0xc4c45d9a096711d4a08a006094eb75cb None 0x0110020000000000060e2b3401040101 true false];
   CRow "TapeDescriptor" 0x0d01010101012e00060e2b3402060101 (Some 0x0d01010101012400060e2b3402060101) true
    [PRow "ColorFrame" 0x9548b03a15fb11d4a08f006094eb75cb None 0x0101070000000000060e2b3401040101 true false];
   CRow "PCMDescriptor" 0x0d01010101014800060e2b3402060101 (Some 0x0d01010101014200060e2b3402060101) true
    [PRow "DataOffset" 0xbb3fabddfcc043a89759c727771fcc4a None 0x0101070000000000060e2b3401040101 true false];
   CRow "CDCIDescriptor" 0x0d01010101012800060e2b3402060101 (Some 0x0d01010101012700060e2b3402060101) true
    [PRow "ImageStartAlignment" 0x506f8de554a111d3a029006094eb75cb None 0x0101030000000000060e2b3401040101 true false;
     PRow "OffsetToFrameIndexes" 0x9d15fca354c511d3a029006094eb75cb None 0x0101070000000000060e2b3401040101 true false;
     PRow "OffsetToFrameIndexes64" 0x298eb26030b64e308c90cf63aa793c34 None 0x0101080000000000060e2b3401040101 true false];
   CRow "DigitalImageDescriptor" 0x0d01010101012700060e2b3402060101 (Some 0x0d01010101012500060e2b3402060101) false
    [PRow "AvidEssenceElementSizeKind" 0x0e04010101010110060e2b3401010101 None 0x0e04020101010000060e2b3401040101 true false;
     PRow "DataOffset" 0xbfde81e4bcc84abda80e214dc0f14684 None 0x0101070000000000060e2b3401040101 true false;
     PRow "EssenceBox" 0x0e04010101010107060e2b3401010101 None 0x0e04030102000000060e2b3401040101 true false;
     PRow "FirstFrameOffset" 0xce2aca4e51ab11d3a024006094eb75cb None 0x0101070000000000060e2b3401040101 true false;
     PRow "FrameIndexByteOrder" 0xb57e925d170d11d4a08f006094eb75cb None 0x0101020000000000060e2b3401040101 true false;
     PRow "FrameSampleSize" 0xce2aca5051ab11d3a024006094eb75cb None 0x0101070000000000060e2b3401040101 true false;
     PRow "FrameStartOffset" 0xc8a0bd74a2474297a52c4458bffa1fc6 None 0x0101070000000000060e2b3401040101 true false;
     PRow "FramingBox" 0x0e0401010101010c060e2b3401010101 None 0x0e04030102000000060e2b3401040101 true false;
     PRow "ImageSize" 0xce2aca4f51ab11d3a024006094eb75cb None 0x0101070000000000060e2b3401040101 true false;
     PRow "ResolutionID" 0xce2aca4d51ab11d3a024006094eb75cb None 0x0101070000000000060e2b3401040101 true false;
     PRow "SourceBox" 0x0e04010101010108060e2b3401010101 None 0x0e04030102000000060e2b3401040101 true false;
     PRow "ValidBox" 0x0e04010101010106060e2b3401010101 None 0x0e04030102000000060e2b3401040101 true false];
   CRow "ANCDataDescriptor" 0x0d01010101015c00060e2b3402060101 (Some 0x0d01010101014300060e2b3402060101) true
    [PRow "ManifestArray" 0x0e04010101010105060e2b3401010101 None 0x0e04040201000000060e2b3401040101 true false];
   CRow "VaryingValue" 0x0d01010101013e00060e2b3402060101 (Some 0x0d01010101013c00060e2b3402060101) true
    [PRow "VVal_Extrapolation" 0x8f2b8baeb6854939b3a56373633b3e6c None 0x0103010000000000060e2b3401040101 true false;
     PRow "VVal_FieldCount" 0x2902558bacfa439ea1cd9fa1e8f891ef None 0x0101060000000000060e2b3401040101 true false];
   CRow "DataEssenceDescriptor" 0x0d01010101014300060e2b3402060101 (Some 0x0d01010101012500060e2b3402060101) true
    [PRow "DataOffset" 0x0e04010101010109060e2b3401010101 None 0x0101070000000000060e2b3401040101 true false;
     PRow "FirstFrameOffset" 0x0e04010101010102060e2b3401010101 None 0x0101070000000000060e2b3401040101 true false;
     PRow "MaxSampleSize" 0x0e04010101010104060e2b3401010101 None 0x0101070000000000060e2b3401040101 true false;
     PRow "MinSampleSize" 0x0e04010101010103060e2b3401010101 None 0x0101070000000000060e2b3401040101 true false;
     PRow "OffsetToFrameIndexes" 0x0e04010101010101060e2b3401010101 None 0x0101080000000000060e2b3401040101 true false];
   CRow "Parameter" 0x0d01010101013c00060e2b3402060101 (Some 0x0d01010101010100060e2b3402060101) false
    [PRow "IsEnabled" 0x0e0401010101010b060e2b3401010101 None 0x0104010000000000060e2b3401040101 true false;
     PRow "IsSilent" 0x967dbcc74ba64b57b8e83a0fbc550353 None 0x0104010000000000060e2b3401040101 true false];
   CRow "ScopeReference" 0x0d01010101010d00060e2b3402060101 (Some 0x0d01010101010300060e2b3402060101) true
    [PRow "Avid Scope" 0x9dc9c6cb479d4ff6988ab6784b90dc43 None 0x0101030000000000060e2b3401040101 true false];
   CRow "Component" 0x0d01010101010200060e2b3402060101 (Some 0x0d01010101010100060e2b3402060101) false
    [PRow "ComponentAttributeList" 0x6095818447b111d4a01c0004ac969f50 None 0x0506080000000000060e2b3401040101 true false];
   CRow "Mob" 0x0d01010101013400060e2b3402060101 (Some 0x0d01010101010100060e2b3402060101) false
    [PRow "AltPrimaryMob" 0xa5820034d0574f55a41ce95c41c2afaf None 0x0104010000000000060e2b3401040101 true false;
     PRow "AppCode" 0x96c469924f6211d3a022006094eb75cb None 0x0101070000000000060e2b3401040101 true false;
     PRow "ConvertFrameRate" 0xd4243bd401424595a8f3f2eba54244de None 0x0104010000000000060e2b3401040101 true false;
     PRow "FileMobRate" 0x0e0401010101010f060e2b3401010101 None 0x0301010000000000060e2b3401040101 true false;
     PRow "MobAttributeList" 0x6095818347b111d4a01c0004ac969f50 None 0x0506080000000000060e2b3401040101 true false;
     PRow "SubclipBegin" 0xaa24b657fcbb4921951d3a2038396722 None 0x0101080000000000060e2b3401040101 true false;
     PRow "SubclipFullLength" 0x1262bf7bfce24dfea0f6ceec047c80aa None 0x0101080000000000060e2b3401040101 true false];
   CRow "SubDescriptor" 0x0d01010101015900060e2b3402060101 (Some 0x0d01010101010100060e2b3402060101) false
    [];
   CRow "SourceClip" 0x0d01010101011100060e2b3402060101 (Some 0x0d01010101011000060e2b3402060101) true
    [PRow "SubclipFullLength" 0x660162e5bbef46188e0b4b149b661a12 None 0x0101080000000000060e2b3401040101 true false];
   CRow "EssenceDescriptor" 0x0d01010101012400060e2b3402060101 (Some 0x0d01010101010100060e2b3402060101) false
    [PRow "MediaContainer" 0x13980e2b2f3044ecbdb03b730da56562 None 0x0110020000000000060e2b3401040101 true false;
     PRow "MediaContainerGUID" 0x9279041701314a05898d167691e11ca1 None 0x0103010000000000060e2b3401040101 true false;
     PRow "SubDescriptors" 0x0601010406100000060e2b3401010109 None 0x05060e0000000000060e2b3401040101 true false];
   CRow "AvidTrackManTrackedParamClass" 0x30a42454069e11d49ffb0004ac969f50 (Some 0x0d01010101010100060e2b3402060101) true
    [PRow "TKMNTrackedParamSetngs" 0x30a42453069e11d49ffb0004ac969f50 None 0xccaa73d1f53811d3a081006094eb75cb false false];
   CRow "TimelineMobSlot" 0x0d01010101013b00060e2b3402060101 (Some 0x0d01010101013800060e2b3402060101) true
    [PRow "TimelineMobAttributeList" 0x107f833119144234b2c45a3eb755b7ca None 0x0506080000000000060e2b3401040101 true false];
   CRow "ControlPoint" 0x0d01010101011900060e2b3402060101 (Some 0x0d01010101010100060e2b3402060101) true
    [PRow "ControlPointPointProperties" 0x3c1b48d0c32c4ea9bb9d35b898527283 None 0x05060a0000000000060e2b3401040101 true false;
     PRow "ControlPointSource" 0x0e0401010101010a060e2b3401010101 None 0x0101070000000000060e2b3401040101 true false];
   CRow "Transition" 0x0d01010101011700060e2b3402060101 (Some 0x0d01010101010200060e2b3402060101) true
    [PRow "TranTKMNTrackedParamAry" 0x2c04d7ec179d11d4a0030004ac969f50 None 0xb56a2ec2fc3b11d39ff70004ac969f50 true false;
     PRow "TranTKMNTrackedParamSetngs" 0x2c04d7ed179d11d4a0030004ac969f50 None 0xccaa73d1f53811d3a081006094eb75cb true false;
     PRow "TranTKMNTrackerDataAry" 0x2c04d7eb179d11d4a0030004ac969f50 None 0xb56a2ec3fc3b11d39ff70004ac969f50 true false];
   CRow "TaggedValue" 0x0d01010101013f00060e2b3402060101 (Some 0x0d01010101010100060e2b3402060101) true
    [PRow "PortableObject" 0xb6bb5f4e7b3711d3a044006094eb75cb None 0xf9a74d0a7b3011d3a044006094eb75cb true false;
     PRow "PortableObjectClassID" 0x08835f4f7b2811d3a044006094eb75cb None 0x0101030000000000060e2b3401040101 true false;
     PRow "TaggedValueAttributeList" 0x6095818547b111d4a01c0004ac969f50 None 0x0506080000000000060e2b3401040101 true false;
     PRow "TaggedValue_Stream" 0xc12d81acbd684fefa37f562d28e37158 None 0x0410020000000000060e2b3401040101 true false];
   CRow "EdgeCode" 0x0d01010101010400060e2b3402060101 (Some 0x0d01010101010300060e2b3402060101) true
    [PRow "AvBasePerf" 0x1fb0160a690745fea997c6818820970e None 0x0101010000000000060e2b3401040101 true false;
     PRow "AvEdgeType" 0x4d783cfa35da45669a522190d5078616 None 0x0101060000000000060e2b3401040101 true false;
     PRow "AvFilmType" 0x067da182a75048ba995bb7fd88f3b838 None 0x0101060000000000060e2b3401040101 true false];
   CRow "RGBADescriptor" 0x0d01010101012900060e2b3402060101 (Some 0x0d01010101012700060e2b3402060101) true
    [PRow "OffsetToFrameIndexes" 0x0e0401010101010d060e2b3401010101 None 0x0101080000000000060e2b3401040101 true false];
   CRow "AvidTrackManTrackerDataClass" 0x13e0a981041211d49ff90004ac969f50 (Some 0x0d01010101010100060e2b3402060101) true
    [PRow "TKMNTrkDataBoxX" 0xe3c9057c311d41c19a7d41ae1de90150 None 0x0502160000000000060e2b3401040101 true false;
     PRow "TKMNTrkDataBoxY" 0xf15129da7d1a4f6887abc0956f125654 None 0x0502160000000000060e2b3401040101 true false;
     PRow "TKMNTrkDataConfidence" 0xc63c3449041211d49ff90004ac969f50 None 0x0502160000000000060e2b3401040101 true false;
     PRow "TKMNTrkDataDataX" 0xc63c3447041211d49ff90004ac969f50 None 0x0502160000000000060e2b3401040101 true false;
     PRow "TKMNTrkDataDataY" 0xc63c3448041211d49ff90004ac969f50 None 0x0502160000000000060e2b3401040101 true false;
     PRow "TKMNTrkDataFilterDataAmt" 0xaab41ed607cc49178119a4bfeec607a0 None 0x0301010000000000060e2b3401040101 true false;
     PRow "TKMNTrkDataJitterRemovalEnabled" 0xd1f936be6f3a4b8d8e7a855ab8a8565f None 0x0104010000000000060e2b3401040101 true false;
     PRow "TKMNTrkDataOffsetTrackingEnabled" 0x875d33e9f5964daa97303128a06b9763 None 0x0104010000000000060e2b3401040101 true false;
     PRow "TKMNTrkDataOffsetX" 0xc63c344a041211d49ff90004ac969f50 None 0x0502160000000000060e2b3401040101 true false;
     PRow "TKMNTrkDataOffsetY" 0xc63c344b041211d49ff90004ac969f50 None 0x0502160000000000060e2b3401040101 true false;
     PRow "TKMNTrkDataPatternH" 0xc63c344d041211d49ff90004ac969f50 None 0x0502160000000000060e2b3401040101 true false;
     PRow "TKMNTrkDataPatternW" 0xc63c344c041211d49ff90004ac969f50 None 0x0502160000000000060e2b3401040101 true false;
     PRow "TKMNTrkDataSearchBH" 0xc63c3451041211d49ff90004ac969f50 None 0x0502160000000000060e2b3401040101 true false;
     PRow "TKMNTrkDataSearchLW" 0xc63c344e041211d49ff90004ac969f50 None 0x0502160000000000060e2b3401040101 true false;
     PRow "TKMNTrkDataSearchRW" 0xc63c344f041211d49ff90004ac969f50 None 0x0502160000000000060e2b3401040101 true false;
     PRow "TKMNTrkDataSearchTH" 0xc63c3450041211d49ff90004ac969f50 None 0x0502160000000000060e2b3401040101 true false;
     PRow "TKMNTrkDataSettings" 0xc63c3452041211d49ff90004ac969f50 None 0xccaa73d1f53811d3a081006094eb75cb false false;
     PRow "TKMNTrkDataSmoothingEnabled" 0x75994f5fe03847699026d8082cebc6e0 None 0x0104010000000000060e2b3401040101 true false];
   CRow "OperationGroup" 0x0d01010101010a00060e2b3402060101 (Some 0x0d01010101010300060e2b3402060101) true
    [PRow "OpGroupAVXParamStream" 0xb045db5e87d747fbb8622a548a1cad60 None 0x0410020000000000060e2b3401040101 true false;
     PRow "OpGroupGraphicsParamStream" 0x73fe71c515f34f0eacb8b70edfe6ca5c None 0x0410020000000000060e2b3401040101 true false;
     PRow "OpGroupLeftLength" 0x7cd5da626a1c44909f6cf57204ec7dba None 0x0101070000000000060e2b3401040101 true false;
     PRow "OpGroupMotionCtlOffsetMapAdjust" 0x77ad684108fc4f53bd0a2a6b0b5f94d9 None 0x0301010000000000060e2b3401040101 true false;
     PRow "OpGroupMotionCtlSourceParams" 0x614406f1d8e7469bbd990e70a9a9cd60 None 0x05060a0000000000060e2b3401040101 true false;
     PRow "OpGroupRightLength" 0xa7da735620214f8997d2e683307c8dd7 None 0x0101070000000000060e2b3401040101 true false;
     PRow "OpGrpTKMNTrackedParamAry" 0x30a42451069e11d49ffb0004ac969f50 None 0xb56a2ec2fc3b11d39ff70004ac969f50 true false;
     PRow "OpGrpTKMNTrackedParamSetng" 0x30a42452069e11d49ffb0004ac969f50 None 0xccaa73d1f53811d3a081006094eb75cb true false;
     PRow "OpGrpTKMNTrackerDataAry" 0xaf91355104c311d49ff90004ac969f50 None 0xb56a2ec3fc3b11d39ff70004ac969f50 true false];
   CRow "Header" 0x0d01010101012f00060e2b3402060101 (Some 0x0d01010101010100060e2b3402060101) true
    [PRow "AudioRateAdjustmentFactor" 0xb7d51ad5650b4d3a859699b579e177a6 None 0x0101020000000000060e2b3401040101 true false;
     PRow "EssenceFileMobID" 0xabf1b7718efd48028b2f680dff611381 None 0x0103020000000000060e2b3401040101 true false;
     PRow "MasterMobID" 0xffdd41e1ae2c49c6ae5878e041454179 None 0x0103020000000000060e2b3401040101 true false;
     PRow "ProjectEditRate" 0xf36546b1387c4ee98c70a718467ae486 None 0x0301010000000000060e2b3401040101 true false;
     PRow "ProjectName" 0x62fc3717492d42bfa5fb7b25f61594b9 None 0x0110020000000000060e2b3401040101 true false];
   CRow "EssenceGroup" 0x0d01010101010500060e2b3402060101 (Some 0x0d01010101010300060e2b3402060101) true
    [PRow "EssenceGroupType" 0xd9c9bf24f6b811d3a083006094eb75cb None 0x0101070000000000060e2b3401040101 true false];
   CRow "Avid MC Mob Reference" 0x6619f8e0fe7711d3a084006094eb75cb (Some 0x0d01010101010100060e2b3402060101) true
    [PRow "Mob Reference MobID" 0x81110e9ffe7c11d3a084006094eb75cb None 0x0103020000000000060e2b3401040101 false false;
     PRow "Mob Reference Position" 0x81110ea0fe7c11d3a084006094eb75cb None 0x0101080000000000060e2b3401040101 false false]].

(** src/aaf2/model/ext/classdefs.py:183-185 *)
Definition ext_aliases : list (string * string) :=
  [("Avid_MC_Mob_Reference", "Avid MC Mob Reference")].

(** src/aaf2/metadict.py:309-312, in the order of the categories of src/aaf2/types.py:951-968 *)
Definition root_types : list tdef :=
  [TDef "HeaderStrongRefence" 0x0502280000000000060e2b3401040101 (KStrong 0x0d01010101012f00060e2b3402060101);
   TDef "MetaDictionaryStrongReference" 0x0502270000000000060e2b3401040101 (KStrong 0x0d01010102250000060e2b3402060101)].

(** src/aaf2/model/typedefs.py:1-567, in the order of the categories of src/aaf2/types.py:951-968 *)
Definition base_types : list tdef :=
  [TDef "aafUInt8" 0x0101010000000000060e2b3401040101 (KInt 1 false);
   TDef "aafUInt16" 0x0101020000000000060e2b3401040101 (KInt 2 false);
   TDef "aafUInt32" 0x0101030000000000060e2b3401040101 (KInt 4 false);
   TDef "aafUInt64" 0x0101040000000000060e2b3401040101 (KInt 8 false);
   TDef "aafInt8" 0x0101050000000000060e2b3401040101 (KInt 1 true);
   TDef "aafInt16" 0x0101060000000000060e2b3401040101 (KInt 2 true);
   TDef "aafInt32" 0x0101070000000000060e2b3401040101 (KInt 4 true);
   TDef "aafInt64" 0x0101080000000000060e2b3401040101 (KInt 8 true);
   TDef "Boolean" 0x0104010000000000060e2b3401040101 (KEnum 0x0101010000000000060e2b3401040101 [(0, "False"); (1, "True")]);
   TDef "ProductReleaseType" 0x0201010100000000060e2b3401040101 (KEnum 0x0101010000000000060e2b3401040101 [(0, "VersionUnknown"); (1, "VersionReleased"); (2, "VersionDebug"); (3, "VersionPatched"); (4, "VersionBeta"); (5, "VersionPrivateBuild")]);
   TDef "TapeFormatType" 0x0201010200000000060e2b3401040101 (KEnum 0x0101010000000000060e2b3401040101 [(0, "TapeFormatNull"); (1, "BetacamFormat"); (2, "BetacamSPFormat"); (3, "VHSFormat"); (4, "SVHSFormat"); (5, "8mmFormat"); (6, "Hi8Format")]);
   TDef "VideoSignalType" 0x0201010300000000060e2b3401040101 (KEnum 0x0101010000000000060e2b3401040101 [(0, "VideoSignalNull"); (1, "NTSCSignal"); (2, "PALSignal")]);
   TDef "TapeCaseType" 0x0201010400000000060e2b3401040101 (KEnum 0x0101010000000000060e2b3401040101 [(0, "TapeCaseNull"); (1, "ThreeFourthInchVideoTape"); (2, "VHSVideoTape"); (3, "8mmVideoTape"); (4, "BetacamVideoTape"); (5, "CompactCassette"); (6, "DATCartridge"); (7, "NagraAudioTape")]);
   TDef "ColorSitingType" 0x0201010500000000060e2b3401040101 (KEnum 0x0101010000000000060e2b3401040101 [(0, "CoSiting"); (1, "Averaging"); (2, "ThreeTap"); (3, "Quincunx"); (4, "Rec601"); (5, "LineAlternating"); (6, "VerticalMidpoint"); (255, "UnknownSiting")]);
   TDef "EditHintType" 0x0201010600000000060e2b3401040101 (KEnum 0x0101010000000000060e2b3401040101 [(0, "NoEditHint"); (1, "Proportional"); (2, "RelativeLeft"); (3, "RelativeRight"); (4, "RelativeFixed")]);
   TDef "FadeType" 0x0201010700000000060e2b3401040101 (KEnum 0x0101010000000000060e2b3401040101 [(0, "FadeNone"); (1, "FadeLinearAmp"); (2, "FadeLinearPower")]);
   TDef "LayoutType" 0x0201010800000000060e2b3401040101 (KEnum 0x0101010000000000060e2b3401040101 [(0, "FullFrame"); (1, "SeparateFields"); (2, "OneField"); (3, "MixedFields"); (4, "SegmentedFrame")]);
   TDef "TCSource" 0x0201010900000000060e2b3401040101 (KEnum 0x0101010000000000060e2b3401040101 [(0, "TimecodeLTC"); (1, "TimecodeVITC")]);
   TDef "PulldownDirectionType" 0x0201010a00000000060e2b3401040101 (KEnum 0x0101010000000000060e2b3401040101 [(0, "TapeToFilmSpeed"); (1, "FilmToTapeSpeed")]);
   TDef "PulldownKindType" 0x0201010b00000000060e2b3401040101 (KEnum 0x0101010000000000060e2b3401040101 [(0, "TwoThreePD"); (1, "PALPD"); (2, "OneToOneNTSC"); (3, "OneToOnePAL"); (4, "VideoTapNTSC"); (5, "OneToOneHDSixty"); (6, "TwentyFourToSixtyPD"); (7, "TwoToOnePD")]);
   TDef "EdgeType" 0x0201010c00000000060e2b3401040101 (KEnum 0x0101010000000000060e2b3401040101 [(0, "EtNull"); (1, "EtKeycode"); (2, "EtEdgenum4"); (3, "EtEdgenum5"); (8, "EtHeaderSize")]);
   TDef "FilmType" 0x0201010d00000000060e2b3401040101 (KEnum 0x0101010000000000060e2b3401040101 [(0, "FtNull"); (1, "Ft35MM"); (2, "Ft16MM"); (3, "Ft8MM"); (4, "Ft65MM")]);
   TDef "RGBAComponentKind" 0x0201010e00000000060e2b3401040101 (KEnum 0x0101010000000000060e2b3401040101 [(48, "CompNone"); (65, "CompAlpha"); (66, "CompBlue"); (70, "CompFill"); (71, "CompGreen"); (80, "CompPalette"); (82, "CompRed"); (0, "CompNull"); (114, "CompRedLSBs"); (103, "CompGreenLSBs"); (98, "CompBlueLSBs"); (97, "CompAlphaLSBs"); (85, "CompColorDifferenceU"); (86, "CompColorDifferenceV"); (87, "CompComposite"); (88, "CompNonCoSitedLuma"); (89, "CompLuma"); (90, "CompDepth"); (117, "CompColorDifferenceULSBs"); (118, "CompColorDifferenceVLSBs"); (119, "CompCompositeLSBs"); (120, "CompNonCoSitedLumaLSBs"); (121, "CompLumaLSBs"); (122, "CompDepthLSBs"); (216, "CompColorX"); (217, "CompColorY"); (218, "CompColorZ")]);
   TDef "ReferenceType" 0x0201010f00000000060e2b3401040101 (KEnum 0x0101010000000000060e2b3401040101 [(0, "RefLimitMinimum"); (1, "RefLimitMaximum"); (2, "RefMinimum"); (3, "RefMaximum"); (4, "RefEnumvalue")]);
   TDef "AlphaTransparencyType" 0x0201012000000000060e2b3401040101 (KEnum 0x0101010000000000060e2b3401040101 [(0, "MinValueTransparent"); (1, "MaxValueTransparent")]);
   TDef "FieldNumber" 0x0201012100000000060e2b3401040101 (KEnum 0x0101010000000000060e2b3401040101 [(0, "UnspecifiedField"); (1, "FieldOne"); (2, "FieldTwo")]);
   TDef "ElectroSpatialFormulation" 0x0201012200000000060e2b3401040101 (KEnum 0x0101010000000000060e2b3401040101 [(0, "ElectroSpatialFormulation_Default"); (1, "ElectroSpatialFormulation_TwoChannelMode"); (2, "ElectroSpatialFormulation_SingleChannelMode"); (3, "ElectroSpatialFormulation_PrimarySecondaryMode"); (4, "ElectroSpatialFormulation_StereophonicMode"); (7, "ElectroSpatialFormulation_SingleChannelDoubleSamplingFrequencyMode"); (8, "ElectroSpatialFormulation_StereoLeftChannelDoubleSamplingFrequencyMode"); (9, "ElectroSpatialFormulation_StereoRightChannelDoubleSamplingFrequencyMode"); (15, "ElectroSpatialFormulation_MultiChannelMode")]);
   TDef "EmphasisType" 0x0201012300000000060e2b3401040101 (KEnum 0x0101010000000000060e2b3401040101 [(0, "Emphasis_Unknown"); (1, "Emphasis_Reserved0"); (2, "Emphasis_Reserved1"); (3, "Emphasis_Reserved2"); (4, "Emphasis_None"); (5, "Emphasis_Reserved3"); (6, "Emphasis_15and50"); (7, "Emphasis_ITU")]);
   TDef "AuxBitsModeType" 0x0201012400000000060e2b3401040101 (KEnum 0x0101010000000000060e2b3401040101 [(0, "AuxBitsMode_NotDefined"); (1, "AuxBitsMode_MainAudioSampleData"); (2, "AuxBitsMode_SingleCoordinationSignal"); (3, "AuxBitsMode_UserDefined"); (4, "AuxBitsMode_Reserved0"); (5, "AuxBitsMode_Reserved1"); (6, "AuxBitsMode_Reserved2"); (7, "AuxBitsMode_Reserved3")]);
   TDef "ChannelStatusModeType" 0x0201012500000000060e2b3401040101 (KEnum 0x0101010000000000060e2b3401040101 [(0, "ChannelStatusMode_None"); (1, "ChannelStatusMode_Minimum"); (2, "ChannelStatusMode_Standard"); (3, "ChannelStatusMode_Fixed"); (4, "ChannelStatusMode_Stream"); (5, "ChannelStatusMode_Essence")]);
   TDef "UserDataModeType" 0x0201012600000000060e2b3401040101 (KEnum 0x0101010000000000060e2b3401040101 [(0, "UserDataMode_NotDefined"); (1, "UserDataMode_192BitBlockStructure"); (2, "UserDataMode_AES18"); (3, "UserDataMode_UserDefined"); (4, "UserDataMode_IEC"); (5, "UserDataMode_Metadata"); (6, "UserDataMode_Reserved0"); (7, "UserDataMode_Reserved1"); (8, "UserDataMode_Reserved2"); (9, "UserDataMode_Reserved3"); (10, "UserDataMode_Reserved4"); (11, "UserDataMode_Reserved5"); (12, "UserDataMode_Reserved6"); (13, "UserDataMode_Reserved7"); (14, "UserDataMode_Reserved8"); (15, "UserDataMode_Reserved9")]);
   TDef "SignalStandardType" 0x0201012700000000060e2b3401040101 (KEnum 0x0101010000000000060e2b3401040101 [(0, "SignalStandard_None"); (1, "SignalStandard_ITU601"); (2, "SignalStandard_ITU1358"); (3, "SignalStandard_SMPTE347M"); (4, "SignalStandard_SMPTE274M"); (5, "SignalStandard_SMPTE296M"); (6, "SignalStandard_SMPTE349M"); (7, "SignalStandard_SMPTE428_1")]);
   TDef "ScanningDirectionType" 0x0201012800000000060e2b3401040101 (KEnum 0x0101010000000000060e2b3401040101 [(0, "ScanningDirection_LeftToRightTopToBottom"); (1, "ScanningDirection_RightToLeftTopToBottom"); (2, "ScanningDirection_LeftToRightBottomToTop"); (3, "ScanningDirection_RightToLeftBottomToTop"); (4, "ScanningDirection_TopToBottomLeftToRight"); (5, "ScanningDirection_TopToBottomRightToLeft"); (6, "ScanningDirection_BottomToTopLeftToRight"); (7, "ScanningDirection_BottomToTopRightToLeft")]);
   TDef "ContentScanningType" 0x0201012a00000000060e2b3401040101 (KEnum 0x0101010000000000060e2b3401040101 [(0, "ContentScanning_NotKnown"); (1, "ContentScanning_Progressive"); (2, "ContentScanning_Interlace"); (3, "ContentScanning_Mixed")]);
   TDef "TitleAlignmentType" 0x0201012b00000000060e2b3401040101 (KEnum 0x0101010000000000060e2b3401040101 [(0, "TitleAlignment_Left"); (1, "TitleAlignment_Center"); (2, "TitleAlignment_Right")]);
   TDef "AVCContentScanningType" 0x0201012c00000000060e2b3401040101 (KEnum 0x0101010000000000060e2b3401040101 [(0, "AVCContentScanning_NotKnown"); (1, "AVCContentScanning_ProgressiveFramePicture"); (2, "AVCContentScanning_InterlaceFieldPicture"); (3, "AVCContentScanning_InterlaceFramePicture"); (4, "AVCContentScanning_Interlace_FrameFieldPicture")]);
   TDef "MPEG4VisualCodedContentType" 0x0201012d00000000060e2b3401040101 (KEnum 0x0101010000000000060e2b3401040101 [(0, "MPEG4VisualCodedContent_Unknown"); (1, "MPEG4VisualCodedContent_Progressive"); (2, "MPEG4VisualCodedContent_Interlaced"); (3, "MPEG4VisualCodedContent_Mixed")]);
   TDef "AUID" 0x0103010000000000060e2b3401040101 (KRec [("Data1", 0x0101030000000000060e2b3401040101); ("Data2", 0x0101020000000000060e2b3401040101); ("Data3", 0x0101020000000000060e2b3401040101); ("Data4", 0x0401080000000000060e2b3401040101)]);
   TDef "MobIDType" 0x0103020000000000060e2b3401040101 (KRec [("SMPTELabel", 0x0401020000000000060e2b3401040101); ("length", 0x0101010000000000060e2b3401040101); ("instanceHigh", 0x0101010000000000060e2b3401040101); ("instanceMid", 0x0101010000000000060e2b3401040101); ("instanceLow", 0x0101010000000000060e2b3401040101); ("material", 0x0103010000000000060e2b3401040101)]);
   TDef "Rational" 0x0301010000000000060e2b3401040101 (KRec [("Numerator", 0x0101070000000000060e2b3401040101); ("Denominator", 0x0101070000000000060e2b3401040101)]);
   TDef "ProductVersion" 0x0301020000000000060e2b3401040101 (KRec [("major", 0x0101020000000000060e2b3401040101); ("minor", 0x0101020000000000060e2b3401040101); ("tertiary", 0x0101020000000000060e2b3401040101); ("patchLevel", 0x0101020000000000060e2b3401040101); ("type", 0x0201010100000000060e2b3401040101)]);
   TDef "VersionType" 0x0301030000000000060e2b3401040101 (KRec [("major", 0x0101050000000000060e2b3401040101); ("minor", 0x0101050000000000060e2b3401040101)]);
   TDef "RGBAComponent" 0x0301040000000000060e2b3401040101 (KRec [("Code", 0x0201010e00000000060e2b3401040101); ("Size", 0x0101010000000000060e2b3401040101)]);
   TDef "DateStruct" 0x0301050000000000060e2b3401040101 (KRec [("year", 0x0101060000000000060e2b3401040101); ("month", 0x0101010000000000060e2b3401040101); ("day", 0x0101010000000000060e2b3401040101)]);
   TDef "TimeStruct" 0x0301060000000000060e2b3401040101 (KRec [("hour", 0x0101010000000000060e2b3401040101); ("minute", 0x0101010000000000060e2b3401040101); ("second", 0x0101010000000000060e2b3401040101); ("fraction", 0x0101010000000000060e2b3401040101)]);
   TDef "TimeStamp" 0x0301070000000000060e2b3401040101 (KRec [("date", 0x0301050000000000060e2b3401040101); ("time", 0x0301060000000000060e2b3401040101)]);
   TDef "aafUUID" 0x0103030000000000060e2b3401040101 (KFixed 0x0101010000000000060e2b3401040101 16);
   TDef "aafUInt8Array12" 0x0401020000000000060e2b3401040101 (KFixed 0x0101010000000000060e2b3401040101 12);
   TDef "aafUInt8Array8" 0x0401080000000000060e2b3401040101 (KFixed 0x0101010000000000060e2b3401040101 8);
   TDef "aafRGBALayout" 0x0402010000000000060e2b3401040101 (KFixed 0x0301040000000000060e2b3401040101 8);
   TDef "aafUUIDArray" 0x0401150000000000060e2b3401040101 (KVar 0x0103030000000000060e2b3401040101);
   TDef "aafUInt8Array" 0x0401010000000000060e2b3401040101 (KVar 0x0101010000000000060e2b3401040101);
   TDef "aafInt32Array" 0x0401030000000000060e2b3401040101 (KVar 0x0101070000000000060e2b3401040101);
   TDef "aafInt64Array" 0x0401040000000000060e2b3401040101 (KVar 0x0101080000000000060e2b3401040101);
   TDef "aafStringArray" 0x0401050000000000060e2b3401040101 (KVar 0x0110010000000000060e2b3401040101);
   TDef "aafAUIDArray" 0x0401060000000000060e2b3401040101 (KVar 0x0103010000000000060e2b3401040101);
   TDef "aafPositionArray" 0x0401070000000000060e2b3401040101 (KVar 0x0101010000000000060e2b3401040101);
   TDef "aafUInt32Array" 0x0401090000000000060e2b3401040101 (KVar 0x0101030000000000060e2b3401040101);
   TDef "aafChannelStatusModeArray" 0x04010a0000000000060e2b3401040101 (KVar 0x0201012500000000060e2b3401040101);
   TDef "aafUserDataModeArray" 0x04010b0000000000060e2b3401040101 (KVar 0x0201012600000000060e2b3401040101);
   TDef "aafDataValue" 0x0410010000000000060e2b3401040101 (KVar 0x0101010000000000060e2b3401040101);
   TDef "kAAFTypeID_ComponentStrongReferenceVector" 0x0506010000000000060e2b3401040101 (KVar 0x05020b0000000000060e2b3401040101);
   TDef "kAAFTypeID_ControlPointStrongReferenceVector" 0x0506020000000000060e2b3401040101 (KVar 0x05020d0000000000060e2b3401040101);
   TDef "kAAFTypeID_IdentificationStrongReferenceVector" 0x0506030000000000060e2b3401040101 (KVar 0x0502100000000000060e2b3401040101);
   TDef "kAAFTypeID_LocatorStrongReferenceVector" 0x0506040000000000060e2b3401040101 (KVar 0x0502120000000000060e2b3401040101);
   TDef "kAAFTypeID_MobSlotStrongReferenceVector" 0x0506050000000000060e2b3401040101 (KVar 0x0502140000000000060e2b3401040101);
   TDef "kAAFTypeID_SegmentStrongReferenceVector" 0x0506060000000000060e2b3401040101 (KVar 0x0502060000000000060e2b3401040101);
   TDef "kAAFTypeID_SourceReferenceStrongReferenceVector" 0x0506070000000000060e2b3401040101 (KVar 0x0502080000000000060e2b3401040101);
   TDef "kAAFTypeID_TaggedValueStrongReferenceVector" 0x0506080000000000060e2b3401040101 (KVar 0x05021a0000000000060e2b3401040101);
   TDef "kAAFTypeID_KLVDataStrongReferenceVector" 0x0506090000000000060e2b3401040101 (KVar 0x05021c0000000000060e2b3401040101);
   TDef "kAAFTypeID_ParameterStrongReferenceVector" 0x05060a0000000000060e2b3401040101 (KVar 0x0502160000000000060e2b3401040101);
   TDef "kAAFTypeID_FileDescriptorStrongReferenceVector" 0x05060b0000000000060e2b3401040101 (KVar 0x05021d0000000000060e2b3401040101);
   TDef "kAAFTypeID_RIFFChunkStrongReferenceVector" 0x05060c0000000000060e2b3401040101 (KVar 0x05021e0000000000060e2b3401040101);
   TDef "kAAFTypeID_DescriptiveObjectStrongReferenceVector" 0x05060d0000000000060e2b3401040101 (KVar 0x0502220000000000060e2b3401040101);
   TDef "kAAFTypeID_SubDescriptorStrongReferenceVector" 0x05060e0000000000060e2b3401040101 (KVar 0x0502260000000000060e2b3401040101);
   TDef "kAAFTypeID_OperationDefinitionWeakReferenceVector" 0x0504010000000000060e2b3401040101 (KVar 0x0501070000000000060e2b3401040101);
   TDef "kAAFTypeID_TypeDefinitionWeakReferenceVector" 0x0504020000000000060e2b3401040101 (KVar 0x0501090000000000060e2b3401040101);
   TDef "kAAFTypeID_DataDefinitionWeakReferenceVector" 0x0504030000000000060e2b3401040101 (KVar 0x0501030000000000060e2b3401040101);
   TDef "aafPositionType" 0x0101200100000000060e2b3401040101 (KRename 0x0101080000000000060e2b3401040101);
   TDef "aafLengthType" 0x0101200200000000060e2b3401040101 (KRename 0x0101080000000000060e2b3401040101);
   TDef "aafJPEGTableIDType" 0x0101200300000000060e2b3401040101 (KRename 0x0101070000000000060e2b3401040101);
   TDef "aafPhaseFrameType" 0x0101230000000000060e2b3401040101 (KRename 0x0101070000000000060e2b3401040101);
   TDef "aafString" 0x0110020000000000060e2b3401040101 (KString 0x0110010000000000060e2b3401040101);
   TDef "aafISO7" 0x0110040000000000060e2b3401040101 (KString 0x0110030000000000060e2b3401040101);
   TDef "Stream" 0x0410020000000000060e2b3401040101 (KStream);
   TDef "aafOpaque" 0x0410040000000000060e2b3401040101 (KOpaque);
   TDef "OperationCategoryType" 0x0202010100000000060e2b3401040101 (KExt [(0x0d01010201010100060e2b3404010101, "OperationCategory_Effect")]);
   TDef "TransferCharacteristicType" 0x0202010200000000060e2b3401040101 (KExt [(0x0401010101010000060e2b3404010101, "TransferCharacteristic_ITU470_PAL"); (0x0401010101020000060e2b3404010101, "TransferCharacteristic_ITU709"); (0x0401010101030000060e2b3404010101, "TransferCharacteristic_SMPTE240M"); (0x0401010101040000060e2b3404010101, "TransferCharacteristic_274M_296M"); (0x0401010101050000060e2b3404010101, "TransferCharacteristic_ITU1361"); (0x0401010101060000060e2b3404010101, "TransferCharacteristic_linear"); (0x0401010101070000060e2b3404010108, "TransferCharacteristic_SMPTE_DCDM"); (0x0401010101080000060e2b340401010d, "TransferCharacteristic_IEC6196624_xvYCC"); (0x0401010101090000060e2b340401010e, "TransferCharacteristic_ITU2020"); (0x04010101010a0000060e2b340401010d, "TransferCharacteristic_SMPTEST2084"); (0x04010101010b0000060e2b340401010d, "TransferCharacteristic_HLG_OETF")]);
   TDef "PluginCategoryType" 0x0202010300000000060e2b3401040101 (KExt [(0x0d01010201010200060e2b3404010101, "PluginCategory_Effect"); (0x0d01010201010300060e2b3404010101, "PluginCategory_Codec"); (0x0d01010201010400060e2b3404010101, "PluginCategory_Interpolation")]);
   TDef "UsageType" 0x0202010400000000060e2b3401040101 (KExt [(0x0d01010201010500060e2b3404010101, "Usage_SubClip"); (0x0d01010201010600060e2b3404010101, "Usage_AdjustedClip"); (0x0d01010201010700060e2b3404010101, "Usage_TopLevel"); (0x0d01010201010800060e2b3404010101, "Usage_LowerLevel"); (0x0d01010201010900060e2b3404010101, "Usage_Template")]);
   TDef "ColorPrimariesType" 0x0202010500000000060e2b3401040101 (KExt [(0x0401010103010000060e2b3404010106, "ColorPrimaries_SMPTE170M"); (0x0401010103020000060e2b3404010106, "ColorPrimaries_ITU470_PAL"); (0x0401010103030000060e2b3404010106, "ColorPrimaries_ITU709"); (0x0401010103040000060e2b340401010d, "ColorPrimaries_ITU2020"); (0x0401010103050000060e2b340401010d, "ColorPrimaries_SMPTE_DCDM"); (0x0401010103060000060e2b340401010d, "ColorPrimaries_P3D65")]);
   TDef "CodingEquationsType" 0x0202010600000000060e2b3401040101 (KExt [(0x0401010102010000060e2b3404010101, "CodingEquations_ITU601"); (0x0401010102020000060e2b3404010101, "CodingEquations_ITU709"); (0x0401010102030000060e2b3404010101, "CodingEquations_SMPTE240M"); (0x0401010102040000060e2b340401010d, "CodingEquations_YCgCo"); (0x0401010102050000060e2b340401010d, "CodingEquations_GBR"); (0x0401010102060000060e2b340401010d, "CodingEquations_ITU2020_NCL")]);
   TDef "aafCharacter" 0x0110010000000000060e2b3401040101 (KChar);
   TDef "aafChar" 0x0110030000000000060e2b3401040101 (KGenChar 1 0);
   TDef "aafIndirect" 0x0410030000000000060e2b3401040101 (KIndirect);
   TDef "AUIDSet" 0x0403010000000000060e2b3401040101 (KSet 0x0103010000000000060e2b3401040101);
   TDef "UInt32Set" 0x0403020000000000060e2b3401040101 (KSet 0x0101030000000000060e2b3401040101);
   TDef "kAAFTypeID_ClassDefinitionStrongReferenceSet" 0x0505010000000000060e2b3401040101 (KSet 0x0502090000000000060e2b3401040101);
   TDef "kAAFTypeID_CodecDefinitionStrongReferenceSet" 0x0505020000000000060e2b3401040101 (KSet 0x05020a0000000000060e2b3401040101);
   TDef "kAAFTypeID_ContainerDefinitionStrongReferenceSet" 0x0505030000000000060e2b3401040101 (KSet 0x05020c0000000000060e2b3401040101);
   TDef "kAAFTypeID_DataDefinitionStrongReferenceSet" 0x0505040000000000060e2b3401040101 (KSet 0x05020e0000000000060e2b3401040101);
   TDef "kAAFTypeID_EssenceDataStrongReferenceSet" 0x0505050000000000060e2b3401040101 (KSet 0x05020f0000000000060e2b3401040101);
   TDef "kAAFTypeID_InterpolationDefinitionStrongReferenceSet" 0x0505060000000000060e2b3401040101 (KSet 0x0502110000000000060e2b3401040101);
   TDef "kAAFTypeID_MobStrongReferenceSet" 0x0505070000000000060e2b3401040101 (KSet 0x0502130000000000060e2b3401040101);
   TDef "kAAFTypeID_OperationDefinitionStrongReferenceSet" 0x0505080000000000060e2b3401040101 (KSet 0x0502150000000000060e2b3401040101);
   TDef "kAAFTypeID_ParameterDefinitionStrongReferenceSet" 0x0505090000000000060e2b3401040101 (KSet 0x0502170000000000060e2b3401040101);
   TDef "kAAFTypeID_PluginDefinitionStrongReferenceSet" 0x05050a0000000000060e2b3401040101 (KSet 0x0502180000000000060e2b3401040101);
   TDef "kAAFTypeID_PropertyDefinitionStrongReferenceSet" 0x05050b0000000000060e2b3401040101 (KSet 0x0502190000000000060e2b3401040101);
   TDef "kAAFTypeID_TypeDefinitionStrongReferenceSet" 0x05050c0000000000060e2b3401040101 (KSet 0x05021b0000000000060e2b3401040101);
   TDef "kAAFTypeID_KLVDataDefinitionStrongReferenceSet" 0x05050d0000000000060e2b3401040101 (KSet 0x0502200000000000060e2b3401040101);
   TDef "kAAFTypeID_TaggedValueDefinitionStrongReferenceSet" 0x05050e0000000000060e2b3401040101 (KSet 0x0502210000000000060e2b3401040101);
   TDef "kAAFTypeID_DescriptiveObjectStrongReferenceSet" 0x05050f0000000000060e2b3401040101 (KSet 0x0502220000000000060e2b3401040101);
   TDef "kAAFTypeID_DataDefinitionWeakReferenceSet" 0x05030d0000000000060e2b3401040101 (KSet 0x0501030000000000060e2b3401040101);
   TDef "kAAFTypeID_ParameterDefinitionWeakReferenceSet" 0x05030e0000000000060e2b3401040101 (KSet 0x0501080000000000060e2b3401040101);
   TDef "kAAFTypeID_PluginDefinitionWeakReferenceSet" 0x05030f0000000000060e2b3401040101 (KSet 0x05010a0000000000060e2b3401040101);
   TDef "kAAFTypeID_PropertyDefinitionWeakReferenceSet" 0x0503100000000000060e2b3401040101 (KSet 0x05010c0000000000060e2b3401040101);
   TDef "kAAFTypeID_ContentStorageStrongReference" 0x0502010000000000060e2b3401040101 (KStrong 0x0d01010101011800060e2b3402060101);
   TDef "kAAFTypeID_DictionaryStrongReference" 0x0502020000000000060e2b3401040101 (KStrong 0x0d01010101012200060e2b3402060101);
   TDef "kAAFTypeID_EssenceDescriptorStrongReference" 0x0502030000000000060e2b3401040101 (KStrong 0x0d01010101012400060e2b3402060101);
   TDef "kAAFTypeID_NetworkLocatorStrongReference" 0x0502040000000000060e2b3401040101 (KStrong 0x0d01010101013200060e2b3402060101);
   TDef "kAAFTypeID_OperationGroupStrongReference" 0x0502050000000000060e2b3401040101 (KStrong 0x0d01010101010a00060e2b3402060101);
   TDef "kAAFTypeID_SegmentStrongReference" 0x0502060000000000060e2b3401040101 (KStrong 0x0d01010101010300060e2b3402060101);
   TDef "kAAFTypeID_SourceClipStrongReference" 0x0502070000000000060e2b3401040101 (KStrong 0x0d01010101011100060e2b3402060101);
   TDef "kAAFTypeID_SourceReferenceStrongReference" 0x0502080000000000060e2b3401040101 (KStrong 0x0d01010101011000060e2b3402060101);
   TDef "kAAFTypeID_ClassDefinitionStrongReference" 0x0502090000000000060e2b3401040101 (KStrong 0x0d01010102010000060e2b3402060101);
   TDef "kAAFTypeID_CodecDefinitionStrongReference" 0x05020a0000000000060e2b3401040101 (KStrong 0x0d01010101011f00060e2b3402060101);
   TDef "kAAFTypeID_ComponentStrongReference" 0x05020b0000000000060e2b3401040101 (KStrong 0x0d01010101010200060e2b3402060101);
   TDef "kAAFTypeID_ContainerDefinitionStrongReference" 0x05020c0000000000060e2b3401040101 (KStrong 0x0d01010101012000060e2b3402060101);
   TDef "kAAFTypeID_ControlPointStrongReference" 0x05020d0000000000060e2b3401040101 (KStrong 0x0d01010101011900060e2b3402060101);
   TDef "kAAFTypeID_DataDefinitionStrongReference" 0x05020e0000000000060e2b3401040101 (KStrong 0x0d01010101011b00060e2b3402060101);
   TDef "kAAFTypeID_EssenceDataStrongReference" 0x05020f0000000000060e2b3401040101 (KStrong 0x0d01010101012300060e2b3402060101);
   TDef "kAAFTypeID_IdentificationStrongReference" 0x0502100000000000060e2b3401040101 (KStrong 0x0d01010101013000060e2b3402060101);
   TDef "kAAFTypeID_InterpolationDefinitionStrongReference" 0x0502110000000000060e2b3401040101 (KStrong 0x0d01010101012100060e2b3402060101);
   TDef "kAAFTypeID_LocatorStrongReference" 0x0502120000000000060e2b3401040101 (KStrong 0x0d01010101013100060e2b3402060101);
   TDef "kAAFTypeID_MobStrongReference" 0x0502130000000000060e2b3401040101 (KStrong 0x0d01010101013400060e2b3402060101);
   TDef "kAAFTypeID_MobSlotStrongReference" 0x0502140000000000060e2b3401040101 (KStrong 0x0d01010101013800060e2b3402060101);
   TDef "kAAFTypeID_OperationDefinitionStrongReference" 0x0502150000000000060e2b3401040101 (KStrong 0x0d01010101011c00060e2b3402060101);
   TDef "kAAFTypeID_ParameterStrongReference" 0x0502160000000000060e2b3401040101 (KStrong 0x0d01010101013c00060e2b3402060101);
   TDef "kAAFTypeID_ParameterDefinitionStrongReference" 0x0502170000000000060e2b3401040101 (KStrong 0x0d01010101011d00060e2b3402060101);
   TDef "kAAFTypeID_PluginDefinitionStrongReference" 0x0502180000000000060e2b3401040101 (KStrong 0x0d01010101011e00060e2b3402060101);
   TDef "kAAFTypeID_PropertyDefinitionStrongReference" 0x0502190000000000060e2b3401040101 (KStrong 0x0d01010102020000060e2b3402060101);
   TDef "kAAFTypeID_TaggedValueStrongReference" 0x05021a0000000000060e2b3401040101 (KStrong 0x0d01010101013f00060e2b3402060101);
   TDef "kAAFTypeID_TypeDefinitionStrongReference" 0x05021b0000000000060e2b3401040101 (KStrong 0x0d01010102030000060e2b3402060101);
   TDef "kAAFTypeID_KLVDataStrongReference" 0x05021c0000000000060e2b3401040101 (KStrong 0x0d01010101014000060e2b3402060101);
   TDef "kAAFTypeID_FileDescriptorStrongReference" 0x05021d0000000000060e2b3401040101 (KStrong 0x0d01010101012500060e2b3402060101);
   TDef "kAAFTypeID_RIFFChunkStrongReference" 0x05021e0000000000060e2b3401040101 (KStrong 0x0d01010101014f00060e2b3402060101);
   TDef "kAAFTypeID_DescriptiveFrameworkStrongReference" 0x05021f0000000000060e2b3401040101 (KStrong 0x0d01040100000000060e2b3402060101);
   TDef "kAAFTypeID_KLVDataDefinitionStrongReference" 0x0502200000000000060e2b3401040101 (KStrong 0x0d01010101014d00060e2b3402060101);
   TDef "kAAFTypeID_TaggedValueDefinitionStrongReference" 0x0502210000000000060e2b3401040101 (KStrong 0x0d01010101014c00060e2b3402060101);
   TDef "kAAFTypeID_DescriptiveObjectStrongReference" 0x0502220000000000060e2b3401040101 (KStrong 0x0d01040000000000060e2b3402060101);
   TDef "kAAFTypeID_SubDescriptorStrongReference" 0x0502260000000000060e2b3401040101 (KStrong 0x0d01010101015900060e2b3402060101);
   TDef "ClassDefinitionWeakReference" 0x0501010000000000060e2b3401040101 (KWeak 0x0d01010102010000060e2b3402060101 [0x0d01030101010100060e2b3401010102; 0x0601010707000000060e2b3401010102]);
   TDef "ContainerDefinitionWeakReference" 0x0501020000000000060e2b3401040101 (KWeak 0x0d01010101012000060e2b3402060101 [0x0d01030101020100060e2b3401010102; 0x0601010402020000060e2b3401010102; 0x0601010405080000060e2b3401010102]);
   TDef "DataDefinitionWeakReference" 0x0501030000000000060e2b3401040101 (KWeak 0x0d01010101011b00060e2b3402060101 [0x0d01030101020100060e2b3401010102; 0x0601010402020000060e2b3401010102; 0x0601010405050000060e2b3401010102]);
   TDef "InterpolationDefinitionWeakReference" 0x0501050000000000060e2b3401040101 (KWeak 0x0d01010101012100060e2b3402060101 [0x0d01030101020100060e2b3401010102; 0x0601010402020000060e2b3401010102; 0x0601010405090000060e2b3401010102]);
   TDef "MobWeakReference" 0x0501060000000000060e2b3401040101 (KWeak 0x0d01010101013400060e2b3402060101 [0x0d01030101020100060e2b3401010102; 0x0601010402010000060e2b3401010102; 0x0601010405010000060e2b3401010102]);
   TDef "OperationDefinitionWeakReference" 0x0501070000000000060e2b3401040101 (KWeak 0x0d01010101011c00060e2b3402060101 [0x0d01030101020100060e2b3401010102; 0x0601010402020000060e2b3401010102; 0x0601010405030000060e2b3401010102]);
   TDef "ParameterDefinitionWeakReference" 0x0501080000000000060e2b3401040101 (KWeak 0x0d01010101011d00060e2b3402060101 [0x0d01030101020100060e2b3401010102; 0x0601010402020000060e2b3401010102; 0x0601010405040000060e2b3401010102]);
   TDef "TypeDefinitionWeakReference" 0x0501090000000000060e2b3401040101 (KWeak 0x0d01010102030000060e2b3402060101 [0x0d01030101010100060e2b3401010102; 0x0601010708000000060e2b3401010102]);
   TDef "PluginDefinitionWeakReference" 0x05010a0000000000060e2b3401040101 (KWeak 0x0d01010101011e00060e2b3402060101 [0x0d01030101020100060e2b3401010102; 0x0601010402020000060e2b3401010102; 0x0601010405060000060e2b3401010102]);
   TDef "CodecDefinitionWeakReference" 0x05010b0000000000060e2b3401040101 (KWeak 0x0d01010101011f00060e2b3402060101 [0x0d01030101020100060e2b3401010102; 0x0601010402020000060e2b3401010102; 0x0601010405070000060e2b3401010102]);
   TDef "PropertyDefinitionWeakReference" 0x05010c0000000000060e2b3401040101 (KWeak 0x0d01010102020000060e2b3402060101 [0x0d01030101010100060e2b3401010102; 0x0601010707000000060e2b3401010102; 0x0601010702000000060e2b3401010102])].

(** src/aaf2/model/ext/typedefs.py:1-146, in the order of the categories of src/aaf2/types.py:951-968 *)
Definition ext_types : list tdef :=
  [TDef "ColorSitingType" 0x0201010500000000060e2b3401040101 (KEnum 0x0101010000000000060e2b3401040101 [(5, "LineAlternating"); (6, "VerticalMidpoint")]);
   TDef "AvidPannerKindType" 0x3659b3424f1943169309f139434a94e5 (KEnum 0x0101030000000000060e2b3401040101 [(1, "AvidPannerKind_Stereo"); (2, "AvidPannerKind_LCR"); (3, "AvidPannerKind_Quad"); (4, "AvidPannerKind_LCRS"); (5, "AvidPannerKind_5dot0"); (6, "AvidPannerKind_5dot1"); (7, "AvidPannerKind_6dot0"); (8, "AvidPannerKind_6dot1"); (9, "AvidPannerKind_7dot0"); (10, "AvidPannerKind_7dot1")]);
   TDef "AvidEssenceElementSizeKind" 0x0e04020101010000060e2b3401040101 (KEnum 0x0101010000000000060e2b3401040101 [(0, "AvidEssenceElementSizeKind_Unknown"); (1, "AvidEssenceElementSizeKind_CBE"); (2, "AvidEssenceElementSizeKind_VBE")]);
   TDef "BoundsBox" 0x0e04030102000000060e2b3401040101 (KRec [("PositionX", 0x0301010000000000060e2b3401040101); ("PositionY", 0x0301010000000000060e2b3401040101); ("Width", 0x0301010000000000060e2b3401040101); ("Height", 0x0301010000000000060e2b3401040101)]);
   TDef "AvidManifestElement" 0x0e04030101000000060e2b3401040101 (KRec [("did", 0x0101010000000000060e2b3401040101); ("sdid", 0x0101010000000000060e2b3401040101)]);
   TDef "EqualizationBand" 0xc4c670c9bd4411d380e9006008143e6f (KRec [("type", 0x0103010000000000060e2b3401040101); ("frequency", 0x0101030000000000060e2b3401040101); ("gain", 0x0101030000000000060e2b3401040101); ("q", 0x0101030000000000060e2b3401040101); ("enable", 0x0104010000000000060e2b3401040101)]);
   TDef "RGBColor" 0xe96e6d43c38311d3a069006094eb75cb (KRec [("red", 0x0101020000000000060e2b3401040101); ("green", 0x0101020000000000060e2b3401040101); ("blue", 0x0101020000000000060e2b3401040101)]);
   TDef "AudioSuitePlugInChunk" 0x4e4d8f5feefd11d39ff50004ac969f50 (KRec [("Version", 0x0101030000000000060e2b3401040101); ("ManufacturerID", 0x0f96cb412aa811d4a00f0004ac969f50); ("ProductID", 0x0f96cb412aa811d4a00f0004ac969f50); ("PlugInID", 0x0f96cb412aa811d4a00f0004ac969f50); ("ChunkID", 0x0f96cb412aa811d4a00f0004ac969f50); ("Name", 0x3271a34ff3a111d39ff50004ac969f50); ("ChunkDataUID", 0x0103010000000000060e2b3401040101)]);
   TDef "AvidBounds" 0x8bc427326bab11d380cf006008143e6f (KFixed 0x0101010000000000060e2b3401040101 48);
   TDef "AvidColor" 0x8bc427336bab11d380cf006008143e6f (KFixed 0x0101010000000000060e2b3401040101 68);
   TDef "AvidCrop" 0x8bc4272f6bab11d380cf006008143e6f (KFixed 0x0101010000000000060e2b3401040101 32);
   TDef "AvidGlobalKeyFrame" 0x09997778960e11d3a04e006094eb75cb (KFixed 0x0101010000000000060e2b3401040101 16);
   TDef "AvidPosition" 0x8bc4272e6bab11d380cf006008143e6f (KFixed 0x0101010000000000060e2b3401040101 24);
   TDef "AvidScale" 0x8bc427306bab11d380cf006008143e6f (KFixed 0x0101010000000000060e2b3401040101 16);
   TDef "AvidSpillSupress" 0x8bc427316bab11d380cf006008143e6f (KFixed 0x0101010000000000060e2b3401040101 8);
   TDef "AvidString4" 0x0f96cb412aa811d4a00f0004ac969f50 (KFixed 0x0101010000000000060e2b3401040101 4);
   TDef "AvidWideString32" 0x3271a34ff3a111d39ff50004ac969f50 (KFixed 0x0101020000000000060e2b3401040101 32);
   TDef "AudioSuitePIChunkArray" 0x4e4d8f60eefd11d39ff50004ac969f50 (KVar 0x4e4d8f5feefd11d39ff50004ac969f50);
   TDef "AudioSuitePIChunkData" 0x5cf19cafef8311d39ff50004ac969f50 (KVar 0x0101010000000000060e2b3401040101);
   TDef "AvidBagOfBits" 0xccaa73d1f53811d3a081006094eb75cb (KVar 0x0101010000000000060e2b3401040101);
   TDef "AvidManifestArray" 0x0e04040201000000060e2b3401040101 (KVar 0x0e04030101000000060e2b3401040101);
   TDef "AvidTKMNTrackedParamArray" 0xb56a2ec2fc3b11d39ff70004ac969f50 (KVar 0xf9a74d0a7b3011d3a044006094eb75cb);
   TDef "AvidTKMNTrackerDataArray" 0xb56a2ec3fc3b11d39ff70004ac969f50 (KVar 0xf9a74d0a7b3011d3a044006094eb75cb);
   TDef "EqualizationBandArray" 0xc4c670cabd4411d380e9006008143e6f (KVar 0xc4c670c9bd4411d380e9006008143e6f);
   TDef "kAAFTypeID_SubDescriptorStrongReferenceVector" 0x05060e0000000000060e2b3401040101 (KVar 0x0502260000000000060e2b3401040101);
   TDef "CodingEquationsType" 0x0202010600000000060e2b3401040101 (KExt [(0x0e04050102010000060e2b3404010101, "CodingEquations_ITU2020")]);
   TDef "ColorPrimariesType" 0x0202010500000000060e2b3401040101 (KExt [(0x0401010103040000060e2b340401010d, "ColorPrimaries_ITU2020"); (0x0e04050103010000060e2b3404010101, "ColorPrimaries_SMPTE_RP431"); (0x0e04050103020000060e2b3404010101, "ColorPrimaries_Sony_SGamut3"); (0x0e04050103030000060e2b3404010101, "ColorPrimaries_Sony_SGamut3_Cine")]);
   TDef "TransferCharacteristicType" 0x0202010200000000060e2b3401040101 (KExt [(0x0e04050101010000060e2b3404010101, "TransferCharacteristic_DPXPrintingDensity"); (0x0e04050101020000060e2b3404010101, "TransferCharacteristic_DPXLogarithmic"); (0x0e04050101030000060e2b3404010101, "TransferCharacteristic_SRGB"); (0x0e04050101050000060e2b3404010101, "TransferCharacteristic_SMPTE_RP431"); (0x0e04050101060000060e2b3404010101, "TransferCharacteristic_SMPTE_ST2084"); (0x0e04050101080000060e2b3404010101, "TransferCharacteristic_ARIB_B67"); (0x0e040501010a0000060e2b3404010101, "TransferCharacteristic_ITU709_Extended2"); (0x0e06040101010605060e2b3404010106, "TransferCharacteristic_Sony_SLog3"); (0x0e17000000010101060e2b340401010c, "TransferCharacteristic_ARRI_LogC")]);
   TDef "AvidStrongReference" 0xf9a74d0a7b3011d3a044006094eb75cb (KStrong 0x0d01010101010100060e2b3402060101);
   TDef "kAAFTypeID_SubDescriptorStrongReference" 0x0502260000000000060e2b3401040101 (KStrong 0x0d01010101015900060e2b3402060101)].

(** metadict.py:340-351: the meta dictionary of a new file *)
Definition base_model : result meta :=
  do m <- register_classes meta0 root_classes ;;
  do m <- register_classes m base_classes ;;
  do m <- register_aliases m base_aliases ;;
  do m <- register_types m root_types ;;
  register_types m base_types.

(** metadict.py:386-396 register_extensions *)
Definition with_extensions (m : meta) : result meta :=
  do m <- register_classes m ext_classes ;;
  do m <- register_aliases m ext_aliases ;;
  register_types m ext_types.
(** file.py:221-222: a file opened with the extensions *)
Definition full_model : result meta := do m <- base_model ;; with_extensions m.
