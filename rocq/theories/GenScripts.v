(** The shipped definition scripts, character by character.

    Generated from /repo/_definitions: each constant is the content of the file named beside
    it (a double quote is written twice, as Coq requires). *)
From Coq Require Import String.
Local Open Scope string_scope.

(** _definitions/boot.lua *)
Definition text_boot : string := "--config:debug(true)

local editionNumber = factory.peekEditionNumber()

if editionNumber == 4 then
    local bufr4 = require 'bufr4.bufr4'
    return bufr4.deserialise()

elseif editionNumber == 3 then
    local bufr3 = require 'bufr3.bufr3'
    return bufr3.deserialise()

else
    error(""Invalid BUFR edition number: "" .. editionNumber)
end".

(** _definitions/bufr4/bufr4.lua *)
Definition text_bufr4_bufr4 : string := "local function deserialise()
    local section0 = require 'common.section0'
    local section1 = require 'bufr4.section1'
    local section2 = require 'common.section2'
    local section3 = require 'common.section3'
    local section4 = require 'common.section4'
    local section5 = require 'common.section5'

    local message = factory.newMessage()

    section0.deserialise()
    section1.deserialise()

    if message:getProxyField('isSection2Presents'):value() then
        section2.deserialise()
    end

    section3.deserialise()

    -- Config tables for lookup
    factory.initTableGroup(
        message:getProxyField('masterTableNumber'):value(),
        message:getProxyField('originatingCentre'):value(),
        message:getProxyField('originatingSubCentre'):value(),
        message:getProxyField('masterTableVersion'):value(),
        message:getProxyField('localTableVersion'):value()
    )

    section4.deserialise()
    section5.deserialise()

    return message
end

return {
    deserialise = deserialise
}".

(** _definitions/bufr3/bufr3.lua *)
Definition text_bufr3_bufr3 : string := "local function deserialise()
    local section0 = require 'common.section0'
    local section1 = require 'bufr3.section1'
    local section2 = require 'common.section2'
    local section3 = require 'common.section3'
    local section4 = require 'common.section4'
    local section5 = require 'common.section5'

    local message = factory.newMessage()

    section0.deserialise()
    section1.deserialise()

    if message:getProxyField('isSection2Presents'):value() then
        section2.deserialise()
    end

    section3.deserialise()

    -- Config tables for lookup
    factory.initTableGroup(
        message:getProxyField('masterTableNumber'):value(),
        message:getProxyField('originatingCentre'):value(),
        message:getProxyField('originatingSubCentre'):value(),
        message:getProxyField('masterTableVersion'):value(),
        message:getProxyField('localTableVersion'):value()
    )

    section4.deserialise()
    section5.deserialise()

    return message
end

return {
    deserialise = deserialise
}".

(** _definitions/bufr4/section1.lua *)
Definition text_bufr4_section1 : string := "local function deserialise()
    local section = factory.newSection(1, 'Identification Section')

    local lengthInBytes = factory.newField {
        'lengthInBytes', UINT, 24;
    }

    factory.newField {
        'masterTableNumber', UINT, 8;
        proxy = true,
    }

    factory.newField {
        'originatingCentre', UINT, 16;
        proxy = true,
    }

    factory.newField {
        'originatingSubCentre', UINT, 16;
        proxy = true,
    }

    factory.newField {
        'updateSequenceNumber', UINT, 8;
        proxy = true,
    }

    factory.newField {
        'isSection2Presents', BOOL, 1;
        proxy = true,
    }

    factory.newField {
        'flagBits', BINARY, 7;
    }

    factory.newField {
        'dataCategory', UINT, 8;
        proxy = true,
    }

    factory.newField {
        'dataI18nSubCategory', UINT, 8;
        proxy = true,
    }

    factory.newField {
        'dataLocalSubCategory', UINT, 8;
        proxy = true,
    }

    factory.newField {
        'masterTableVersion', UINT, 8;
        proxy = true,
    }

    factory.newField {
        'localTableVersion', UINT, 8;
        proxy = true,
    }

    factory.newField {
        'year', UINT, 16;
        proxy = true,
    }

    factory.newField {
        'month', UINT, 8;
        proxy = true,
    }

    factory.newField {
        'day', UINT, 8;
        proxy = true,
    }

    factory.newField {
        'hour', UINT, 8;
        proxy = true,
    }

    factory.newField {
        'minute', UINT, 8;
        proxy = true,
    }

    factory.newField {
        'second', UINT, 8;
        proxy = true,
    }

    factory.padding(lengthInBytes:value())

    return section
end

return {
    deserialise = deserialise
}".

(** _definitions/bufr3/section1.lua *)
Definition text_bufr3_section1 : string := "local function deserialise()
    local section = factory.newSection(1, 'Identification Section')

    local lengthInBytes = factory.newField {
        'lengthInBytes', UINT, 24;
    }

    factory.newField {
        'masterTableNumber', UINT, 8;
        proxy = true,
    }

    factory.newField {
        'originatingSubCentre', UINT, 8;
        proxy = true,
    }

    factory.newField {
        'originatingCentre', UINT, 8;
        proxy = true,
    }

    factory.newField {
        'updateSequenceNumber', UINT, 8;
        proxy = true,
    }

    factory.newField {
        'isSection2Presents', BOOL, 1;
        proxy = true,
    }

    factory.newField {
        'flagBits', BIN, 7;
    }

    factory.newField {
        'dataCategory', UINT, 8;
        proxy = true,
    }

    factory.newField {
        'dataLocalSubCategory', UINT, 8;
        proxy = true,
    }

    factory.newField {
        'masterTableVersion', UINT, 8;
        proxy = true,
    }

    factory.newField {
        'localTableVersion', UINT, 8;
        proxy = true,
    }

    factory.newField {
        'year', UINT, 8;
        proxy = true,
    }

    factory.newField {
        'month', UINT, 8;
        proxy = true,
    }

    factory.newField {
        'day', UINT, 8;
        proxy = true,
    }

    factory.newField {
        'hour', UINT, 8;
        proxy = true,
    }

    factory.newField {
        'minute', UINT, 8;
        proxy = true,
    }

    factory.newField {
        'second', UINT, 8;
        proxy = true,
    }

    factory.padding(lengthInBytes:value())

    return section
end

return {
    deserialise = deserialise
}".

(** _definitions/common/section0.lua *)
Definition text_common_section0 : string := "local function deserialise()
    local section = factory.newSection(0, 'Indicator Section')

    factory.newField {
        'startSignature', BYTES, 32;
    }

    factory.newField {
        'totalLengthInBytes', UINT, 24;
        proxy = true,
    }

    factory.newField {
        'bufrEditionNumber', UINT, 8;
        proxy = true,
    }

    return section
end

return {
    deserialise = deserialise
}".

(** _definitions/common/section2.lua *)
Definition text_common_section2 : string := "local function deserialise()
    local section = factory.newSection(2, 'Optional Section')

    local lengthInBytes = factory.newField {
        'lengthInBytes', UINT, 24;
    }

    factory.newField {
        'reservedBits', BINARY, 8;
    }

    -- TODO: process local bits
    factory.newField {
        'localBits', BINARY, (lengthInBytes:value() - 4) * BITS_PER_BYTE;
    }

    return section
end

return {
    deserialise = deserialise
}".

(** _definitions/common/section3.lua *)
Definition text_common_section3 : string := "local function deserialise()
    local section = factory.newSection(3, 'Data Description Section')

    local lengthInBytes = factory.newField {
        'lengthInBytes', UINT, 24;
    }

    factory.newField {
        'reservedBits', BIN, 8;
    }

    factory.newField {
        'nSubsets', UINT, 16;
        proxy = true,
    }

    factory.newField {
        'isObservation', BOOL, 1;
        proxy = true,
    }

    factory.newField {
        'isCompressed', BOOL, 1;
        proxy = true,
    }

    factory.newField {
        'flagBits', BIN, 6;
    }

    factory.newTemplateField {
        'unexpandedTemplate', 2, 6, 8, lengthInBytes:value();
    }

    factory.padding(lengthInBytes:value())

    return section
end

return {
    deserialise = deserialise
}".

(** _definitions/common/section4.lua *)
Definition text_common_section4 : string := "local function deserialise()
    local section = factory.newSection(4, 'Data Section')

    local lengthInBytes = factory.newField {
        'lengthInBytes', UINT, 24;
    }

    factory.newField {
        'reservedBits', BIN, 8;
    }

    factory.newPayloadField {
        'payload',
        factory.getMessage():getProxyField(""nSubsets""):value(),
        factory.getMessage():getProxyField(""isCompressed""):value(),
    }

    factory.padding(lengthInBytes:value())

    return section
end

return {
    deserialise = deserialise
}".

(** _definitions/common/section5.lua *)
Definition text_common_section5 : string := "local function deserialise()
    local section = factory.newSection(5, 'End Section')

    factory.newField {
        'stopSignature', BYTES, 32;
        assert = function(x)
            assert(x == '7777', 'Stop signature not matched: ' .. x)
        end
    }

    return section
end

return {
    deserialise = deserialise
}".

(** The files of the directory _definitions, by their path in it. *)
Definition shipped_scripts (path : string) : option string :=
  if String.eqb path "boot.lua" then Some text_boot
  else if String.eqb path "bufr4/bufr4.lua" then Some text_bufr4_bufr4
  else if String.eqb path "bufr3/bufr3.lua" then Some text_bufr3_bufr3
  else if String.eqb path "bufr4/section1.lua" then Some text_bufr4_section1
  else if String.eqb path "bufr3/section1.lua" then Some text_bufr3_section1
  else if String.eqb path "common/section0.lua" then Some text_common_section0
  else if String.eqb path "common/section2.lua" then Some text_common_section2
  else if String.eqb path "common/section3.lua" then Some text_common_section3
  else if String.eqb path "common/section4.lua" then Some text_common_section4
  else if String.eqb path "common/section5.lua" then Some text_common_section5
  else None.
