-Q theories Verif
theories/Base.v
theories/BaseFacts.v
theories/RingModel.v
theories/RingSpec.v
theories/RingProofs.v
theories/StreamModel.v
theories/StreamSpec.v
theories/StreamProofs.v
theories/RingProps.v
theories/StreamMore.v
theories/StreamProps.v
theories/ArrayModel.v
theories/ArraySpec.v
theories/ArrayProofs.v
theories/ArrayFinal.v
theories/IteratorModel.v
theories/IteratorProofs.v
theories/ArrayProps.v
theories/BitModel.v
theories/BitSpec.v
theories/BitProofs.v
theories/BitProps.v
theories/RangeModel.v
theories/RangeSpec.v
theories/RangeProofs.v
theories/RangeProps.v
theories/TimeModel.v
theories/TimeSpec.v
theories/TimeProofs.v
theories/TimeProps.v
theories/TaskModel.v
theories/TaskSpec.v
theories/TaskProofs.v
theories/TaskProps.v
theories/ButtonModel.v
theories/ButtonSpec.v
theories/ButtonProofs.v
theories/ButtonProps.v
theories/MidiModel.v
theories/MidiSpec.v
theories/MidiProofs.v
theories/MidiProps.v
theories/TextModel.v
theories/TextSpec.v
theories/TextProofs.v
theories/TextProps.v
theories/PidModel.v
theories/PidSpec.v
theories/PidProofs.v
theories/PidProps.v
theories/UrmModel.v
theories/UrmSpec.v
theories/UrmProofs.v
theories/UrmProps.v
theories/ShiftModel.v
theories/ShiftSpec.v
theories/ShiftProofs.v
theories/ShiftProps.v
theories/MotorModel.v
theories/MotorSpec.v
theories/MotorProofs.v
theories/MotorProps.v
theories/HdModel.v
theories/HdSpec.v
theories/HdIfProofs.v
theories/HdProofs.v
theories/HdCtlProofs.v
theories/HdProps.v
theories/HdTimeModel.v
theories/HdTimeSpec.v
theories/HdTimeProofs.v
theories/HdTimeProps.v
theories/UiModel.v
theories/UiSpec.v
theories/UiProofs.v
theories/UiTreeProofs.v
theories/EditModel.v
theories/EditSpec.v
theories/EditProofs.v
theories/UiProps.v
theories/PageModel.v
theories/PageSpec.v
theories/PageProofs.v
theories/PageTreeProofs.v
theories/PageProps.v
theories/RealModel.v
theories/RealSpec.v
theories/RealProofs.v
theories/RealProps.v
theories/AvrModel.v
theories/AvrSpec.v
theories/AvrProofs.v
theories/AvrProps.v
theories/LayoutModel.v
theories/LayoutSpec.v
theories/LayoutProofs.v
theories/LayoutProps.v
theories/LinkModel.v
theories/LinkSpec.v
theories/LinkProofs.v
theories/LinkProps.v
theories/FlashModel.v
theories/FlashSpec.v
theories/FlashProofs.v
theories/FlashProps.v
theories/ArduinoModel.v
theories/ArduinoSpec.v
theories/ArduinoProofs.v
theories/ArduinoProps.v
theories/SketchModel.v
theories/SketchSpec.v
theories/SketchProofs.v
theories/SketchTaskProofs.v
theories/SketchButtonProofs.v
theories/SketchProps.v
theories/FloatSpec.v
theories/FloatProofs.v
theories/PidFloatModel.v
theories/PidFloatSpec.v
theories/PidFloatProofs.v
theories/PidFloatAccProofs.v
theories/PidFloatProps.v
theories/FormModel.v
theories/FormSpec.v
theories/FormProofs.v
theories/FormDrawProofs.v
theories/FormProps.v
theories/TearModel.v
theories/TearSpec.v
theories/TearProofs.v
theories/TearRxProofs.v
theories/TearProps.v
theories/PrintModel.v
theories/PrintSpec.v
theories/PrintProofs.v
theories/PrintProps.v
theories/UrmLinkModel.v
theories/UrmLinkSpec.v
theories/UrmLinkProofs.v
theories/UrmLinkProps.v
theories/MotorPinModel.v
theories/MotorPinSpec.v
theories/MotorPinProofs.v
theories/MotorPinProps.v
theories/DelayModel.v
theories/DelaySpec.v
theories/DelayProofs.v
theories/DelayProps.v
theories/HdDelayModel.v
theories/HdDelaySpec.v
theories/HdDelayProofs.v
theories/HdDelayProps.v
theories/DemoModel.v
theories/DemoSpec.v
theories/DemoProofs.v
theories/DemoProps.v
theories/OptModel.v
theories/OptSpec.v
theories/OptProofs.v
theories/OptRefProofs.v
theories/OptProps.v
theories/ShareModel.v
theories/ShareSpec.v
theories/ShareProofs.v
theories/ShareProps.v
theories/SignedBitsModel.v
theories/SignedBitsSpec.v
theories/SignedBitsProofs.v
theories/SignedBitsProps.v
theories/MacroModel.v
theories/MacroSpec.v
theories/MacroProofs.v
theories/MacroProps.v
theories/RangeFloatModel.v
theories/RangeFloatSpec.v
theories/RangeFloatProofs.v
theories/RangeFloatProps.v
theories/ChainModel.v
theories/ChainSpec.v
theories/ChainProofs.v
theories/ChainProps.v
theories/MiscModel.v
theories/MiscSpec.v
theories/MiscProofs.v
theories/MiscProps.v
theories/HwRxModel.v
theories/HwRxSpec.v
theories/HwRxProofs.v
theories/HwRxProps.v
theories/HwTxModel.v
theories/HwTxSpec.v
theories/HwTxProofs.v
theories/HwTxProps.v
theories/HwLinkProps.v
theories/WireModel.v
theories/WireSpec.v
theories/WireProofs.v
theories/WireProps.v
theories/WireLinkModel.v
theories/WireLinkProofs.v
theories/WireLinkProps.v
theories/NoiseModel.v
theories/NoiseSpec.v
theories/NoiseProofs.v
theories/NoiseProps.v
theories/LocalModel.v
theories/LocalSpec.v
theories/LocalProofs.v
theories/LocalProps.v
theories/MidiWireModel.v
theories/MidiWireProofs.v
theories/MidiWireProps.v
theories/PromptModel.v
theories/PromptProofs.v
theories/PromptProps.v
theories/TextWireModel.v
theories/TextWireSpec.v
theories/TextWireProofs.v
theories/TextWireProps.v
theories/UrmWireModel.v
theories/UrmWireSpec.v
theories/UrmWireProofs.v
theories/UrmTurnProofs.v
theories/UrmTurnWire.v
theories/UrmWireProps.v
theories/RepoTests.v
theories/RegIsrModel.v
theories/RegIsrSpec.v
theories/RegIsrProofs.v
theories/RegIsrMore.v
theories/RegIsrProps.v
theories/AvrLcdModel.v
theories/AvrLcdSpec.v
theories/AvrLcdProofs.v
theories/AvrLcdMore.v
theories/AvrLcdProps.v
theories/PinIsrModel.v
theories/PinIsrSpec.v
theories/PinIsrProofs.v
theories/PinIsrNew.v
theories/PinIsrMore.v
theories/PinIsrProps.v
theories/DuplexModel.v
theories/DuplexSpec.v
theories/DuplexProofs.v
theories/DuplexProps.v
