rocq/.lia.cache
**/.lia.cache
**/.nia.cache
