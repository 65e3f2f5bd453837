-Q theories Verif
theories/PyStr.v
theories/PyStrFacts.v
theories/PyBase.v
theories/ResultModel.v
theories/HeapModel.v
theories/ContextModel.v
theories/ResultSpec.v
theories/ResultFacts.v
theories/ContextSpec.v
theories/ContextFacts.v
theories/P_Result.v
theories/ConfigModel.v
theories/ConfigSpec.v
theories/ConfigFacts.v
theories/Codec.v
theories/CodecSpec.v
theories/HttpModel.v
theories/CodecFacts.v
theories/P_Config.v
theories/P_Http.v
theories/PyXml.v
theories/OpcModel.v
theories/FileModel.v
theories/OpcSpec.v
theories/OpcFacts.v
theories/OpcFacts2.v
theories/FileSpec.v
theories/OpcFacts3.v
theories/P_Opc.v
theories/Regex.v
theories/DataTypesModel.v
theories/DataTypesSpec.v
theories/DataTypesFacts.v
theories/DataTypesFacts2.v
theories/DataTypesFacts3.v
theories/DataTypesFacts4.v
theories/DataTypesFacts5.v
theories/P_DataTypes.v
theories/BinarySpec.v
theories/P_Binary.v
theories/PyVal.v
theories/ReflectModel.v
theories/MetaModel.v
theories/AdapterModel.v
theories/ParseModel.v
theories/ReflectSpec.v
theories/ReflectFacts.v
theories/MetaSpec.v
theories/MetaFacts.v
theories/P_Reflect.v
theories/ConstraintModel.v
theories/CheckModel.v
theories/ParseSpec.v
theories/ParseFacts.v
theories/ParseFacts2.v
theories/ParseSim.v
theories/ParseFacts3.v
theories/ParseFacts4.v
theories/P_Parse.v
theories/ParseCrash.v
theories/XmlSpec.v
theories/XmlFacts.v
theories/XmlFacts2.v
theories/XmlFacts3.v
theories/P_Xml.v
theories/TypeSpec.v
theories/TypeFacts.v
theories/TypeFacts2.v
theories/ConstraintSpec.v
theories/ConstraintFacts.v
theories/ConstraintFacts2.v
theories/ConstraintFacts3.v
theories/ConstraintFacts4.v
theories/ConstraintFacts5.v
theories/ConstraintFacts6.v
theories/ConstraintFacts7.v
theories/ConstraintFacts8.v
theories/P_Constraint.v
theories/P_Constraint2.v
theories/P_Constraint3.v
theories/PathSpec.v
theories/PathFacts.v
theories/P_Path.v
theories/TemplateModel.v
theories/TemplateSpec.v
theories/TemplateFacts.v
theories/TemplateFacts2.v
theories/P_Template.v
theories/ProgModel.v
theories/ProgSpec.v
theories/ProgFacts.v
theories/ApiModel.v
theories/ApiSpec.v
theories/ApiSuites.v
theories/ApiFacts.v
theories/ApiBody.v
theories/ApiTables.v
theories/ApiFacts2.v
theories/ApiFacts3.v
theories/P_Api.v
theories/ArgModel.v
theories/CliModel.v
theories/CliSpec.v
theories/ArgFacts.v
theories/CliFacts.v
theories/P_Cli.v
theories/JsonSpec.v
theories/JsonFacts.v
theories/P_Json.v
theories/ActsFacts.v
theories/RequestSpec.v
theories/RequestFacts.v
theories/RequestFacts2.v
theories/RequestFacts3.v
theories/ReportFacts.v
theories/P_Report.v
theories/P_Request.v
theories/TestSpec.v
theories/ApiPart.v
theories/VerdictSpec.v
theories/ApiValue.v
theories/TestFacts.v
theories/TestFacts2.v
theories/TestFacts3.v
theories/P_Tests.v
theories/VerdictFacts.v
theories/P_Verdict.v
theories/CrashSpec.v
theories/CrashValue.v
theories/CrashFacts.v
theories/CrashFacts2.v
theories/CrashFacts3.v
theories/CrashFacts4.v
theories/CrashFacts5.v
theories/CrashFacts6.v
theories/P_Crash.v
theories/P_Outage.v
theories/ScriptsModel.v
theories/ScriptsSpec.v
theories/ScriptsTexts.v
theories/P_Scripts.v
