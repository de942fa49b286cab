rocq/.nia.cache
